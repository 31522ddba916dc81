(** C84: the constructor never looks at the remembered keyword arguments, and a table passed
    to it has the same effect as the same table derived by it. *)
From Coq Require Import Reals QArith List Bool String Lia.
From Verif.Base Require Import Num Res Tac.
From Verif.Model Require Import Units Util Psychrometrics Conditions Defrost Fan Curves
  Tabular Unit NREL BaseModel Title24 Resnet DXUnit.
From Verif.Spec Require Import BuildSpec UnitSpec UnitModels.
From Verif.Proofs Require Import Frame UnitProofs SingleFan SingleUnit RatedEer RatedTable RatedFan Unbuildable SettingsProofs.
Import ListNotations.
Local Open Scope R_scope.

Section Own.
  Notation U := (dxunit R).
  (** The unit remembering other arguments: none of these is looked at once there is a table. *)
  Variable kw : list (string * kwval R).
  Variables fs fe fh : option R -> option R.
  Variable fc : option (num_or_list R) -> option (num_or_list R).
  Definition re (u : U) : U :=
    mkUnit kw (fs (u_seer u)) (fe (u_eer u)) (fh (u_hspf u)) (fc (u_hcop u)) (u_cycling u) (u_ducted u)
      (u_cooling_off u) (u_defrost u) (u_crank_setpoint u) (u_standard u) (u_charge u) (u_staging u) (u_heating_off u)
      (u_heating_on u) (u_c u) (u_h u) (u_shr u) (u_bf u) (u_ntu u) (u_full_esp u) (u_fan u) (u_crank u) (u_conds u)
      (u_rn u).

  (** [m] does the same on both. *)
  Definition alike {A} (m : st U A) : Prop := forall u, m (re u) = (re (fst (m u)), snd (m u)).

  Lemma alike_ret {A} (a : A) : alike (sret a).
  Proof. intros u. reflexivity. Qed.
  Lemma alike_lift {A} (r : res A) : alike (slift r).
  Proof. intros u. reflexivity. Qed.
  Lemma alike_read {A} (g : U -> res A) : (forall u, g (re u) = g u) -> alike (sread g).
  Proof. intros H u. unfold sread. rewrite H. reflexivity. Qed.
  Lemma alike_bind {A B} (m : st U A) (k : A -> st U B) :
    alike m -> (forall a, alike (k a)) -> alike (sbind m k).
  Proof.
    intros H1 H2 u. unfold sbind. rewrite (H1 u).
    destruct (m u) as [u1 [a|e]]; cbn [fst snd]; [apply H2|reflexivity].
  Qed.
  Lemma alike_get {B} (k : U -> st U B) :
    (forall u, k (re u) = k u) -> (forall u, alike (k u)) -> alike (sbind sget k).
  Proof. intros H1 H2 u. unfold sbind, sget. rewrite H1. apply H2. Qed.
  Lemma alike_mod (f : U -> U) : (forall u, f (re u) = re (f u)) -> alike (smod f).
  Proof. intros H u. unfold smod. rewrite H. reflexivity. Qed.
  Lemma alike_fold {A} (f : A -> st U unit) l : (forall a, alike (f a)) -> alike (sfold f l).
  Proof. intros H. induction l as [|a l IH]; simpl; [apply alike_ret|]. apply alike_bind; auto. Qed.
  Lemma alike_on_fan {A} (m : st (fan R) A) : alike (on_fan m).
  Proof.
    intros u. unfold on_fan. cbn [u_fan re]. destruct (u_fan u) as [f|]; [|reflexivity].
    destruct (m f). reflexivity.
  Qed.

  Ltac step :=
    cbv zeta beta;
    lazymatch goal with
    | |- alike (sret _) => apply alike_ret
    | |- alike (slift _) => apply alike_lift
    | |- alike (on_fan _) => apply alike_on_fan
    | |- alike (sread _) => apply alike_read; intros; reflexivity
    | |- alike (sbind sget _) => apply alike_get; [intros ?; reflexivity | intros ?]
    | |- alike (sbind _ _) => apply alike_bind; [|intros ?]
    | |- alike (sfold _ _) => apply alike_fold; intros ?
    | |- alike (smod _) => apply alike_mod; intros ?; reflexivity
    | |- alike (match ?x with _ => _ end) => destruct x
    end.
  Ltac puts := unfold put_rn, side_put, on_side; cbn [side_of wu_side].

  Lemma alike_last : alike last_fan_speed.
  Proof. unfold last_fan_speed. step. Qed.
  Lemma alike_put_fan m i k : alike (put_fan_speed m i k).
  Proof. destruct m; unfold put_fan_speed; puts; repeat step. Qed.
  Lemma alike_put_rated m i k : alike (put_rated_fan_speed m i k).
  Proof. destruct m; unfold put_rated_fan_speed; puts; repeat step. Qed.
  Lemma alike_add_design m i : alike (add_design_speed m i).
  Proof.
    unfold add_design_speed. destruct m; cbn [side_of];
      repeat first [step | apply alike_last | apply alike_put_fan].
  Qed.
  Lemma alike_add_rated sol m i full : alike (add_rated_speed sol m i full).
  Proof.
    unfold add_rated_speed. destruct m; puts;
      repeat first [step | apply alike_last | apply alike_put_rated].
  Qed.
  Lemma alike_other sol m k iq : alike (other_speed sol m k iq).
  Proof.
    unfold other_speed. cbv zeta. destruct (Nat.eqb _ _); [apply alike_ret|].
    destruct m; puts; repeat first [step | apply alike_add_design | apply alike_add_rated].
  Qed.
  Lemma alike_given sol m f i : alike (given_fan_speed sol m f i).
  Proof. unfold given_fan_speed. destruct m; puts; repeat step. Qed.
  Lemma alike_reset_esp : alike reset_full_esp.
  Proof. unfold reset_full_esp. repeat step. Qed.
  Lemma alike_set_fan sol f : alike (resnet_set_fan sol f).
  Proof.
    unfold resnet_set_fan. destruct f as [f|].
    - repeat first [step | puts; step | apply alike_given].
    - repeat first
        [ lazymatch goal with |- alike (match ?m with MotorPSC => _ | _ => _ end) => destruct m end
        | apply alike_last | apply alike_put_fan | apply alike_add_design | apply alike_add_rated
        | apply alike_other
        | step | puts; step ].
  Qed.
  Lemma alike_cops m net gross i : alike (put_table_cops m net gross i).
  Proof. destruct m; unfold put_table_cops; puts; repeat step. Qed.
  Lemma alike_gross : alike setup_gross_table.
  Proof. unfold setup_gross_table. puts. repeat first [step | apply alike_cops]. Qed.
  Lemma alike_lower sol m : alike (lower_speed sol m).
  Proof.
    unfold lower_speed. destruct m; puts;
      repeat first [step | apply alike_last | apply alike_put_rated | apply alike_add_design].
  Qed.
  Lemma alike_set_lower sol : alike (set_lower_speed_net_capacities sol).
  Proof. unfold set_lower_speed_net_capacities. repeat first [step | apply alike_lower]. Qed.

  Section Construct.
    Variable psy : psychro R.
    Variable sol : solvers R.
    Notation M := (RESNETDXModel psy sol).

    Lemma alike_put_cond set m s o : alike (put_cond psy set m s o).
    Proof. unfold put_cond. destruct m; repeat step. Qed.
    Lemma alike_conditions : alike (set_rating_conditions psy).
    Proof.
      unfold set_rating_conditions. apply alike_bind; [apply alike_reset_esp|]. intros _.
      apply alike_get; [reflexivity|]. intros u. cbv zeta.
      repeat first [apply alike_put_cond | step].
    Qed.
    Lemma alike_bypass c : alike (calculate_rated_bypass_factor psy sol M c).
    Proof. unfold calculate_rated_bypass_factor. repeat step. Qed.
    Lemma alike_sensible : alike (set_sensible_cooling_variables psy sol M).
    Proof.
      unfold set_sensible_cooling_variables, set_sensible_at.
      repeat first [apply alike_bypass | step].
    Qed.
    Lemma alike_put_gross m i : alike (put_gross_capacity m i).
    Proof. unfold put_gross_capacity. destruct m; puts; repeat step. Qed.
    Lemma alike_net_cop m v : alike (md_set_net_cop M m v).
    Proof.
      cbn [md_set_net_cop RESNETDXModel]. unfold unless_table, nrel_set_net_cop, derive_from_net_cop, set_comp, set_entry.
      destruct v, m; puts; repeat step.
    Qed.
    Lemma alike_gross_cop m v : alike (md_set_gross_cop M m v).
    Proof.
      cbn [md_set_gross_cop RESNETDXModel]. unfold unless_table, nrel_set_gross_cop, derive_from_gross_cop, set_comp, set_entry.
      destruct v, m; puts; repeat step.
    Qed.
    Lemma alike_opt {A} (f : A -> st U unit) o : (forall x, alike (f x)) -> alike (opt_set f o).
    Proof. intros H. destruct o; [apply H|apply alike_ret]. Qed.
  End Construct.

  (** ** The tables *)
  (** The unit with a table passed to it. *)
  Definition given (net : perf R) (u : U) : U := re (wu_rn (wr_net (Some net) (u_rn u)) u).

  Lemma ensure_given build (u u' : U) net b : rn_net (u_rn u) = None -> rn_net (u_rn u') = Some net ->
    ensure_table build u = (u', Ok b) -> ensure_table build (given net u) = (re u', Ok b).
  Proof.
    intros N N' E. unfold ensure_table in E |- *. unfold sbind, sget in E |- *. rewrite N in E.
    change (rn_net (u_rn (given net u))) with (Some net). cbv iota.
    unfold slift in E. destruct (build u) as [p|]; [|discriminate].
    unfold put_rn, smod in E. inversion E; subst. cbn in N'. injection N' as ->. reflexivity.
  Qed.
  Lemma alike_ok {A} (m : st U A) u u' a : alike m -> m u = (u', Ok a) -> m (re u) = (re u', Ok a).
  Proof. intros H E. rewrite (H u), E. reflexivity. Qed.

  Lemma caps_given qc qh (u u' : U) net b : rn_net (u_rn u) = None -> rn_net (u_rn u') = Some net ->
    capacities_from_table qc qh u = (u', Ok b) -> capacities_from_table qc qh (given net u) = (re u', Ok b).
  Proof.
    intros N N' H. unfold capacities_from_table in H |- *.
    apply sbind_ok in H. destruct H as (s & x & E & H). unfold sget in E. apply pair_ok_inj in E.
    destruct E as [<- <-].
    apply sbind_ok. exists (given net u), (given net u). split; [reflexivity|].
    apply sbind_ok in H. destruct H as (s1 & [] & E & H).
    change (u_staging (given net u)) with (u_staging u).
    match type of H with ?m s1 = _ => assert (AL : alike m) end.
    { puts. repeat step. }
    assert (N1 : rn_net (u_rn s1) = Some net).
    { match type of H with ?m s1 = _ => assert (K : keeps (fun u : U => rn_net (u_rn u)) m) end.
      { puts. repeat (keep_step || (cbv zeta beta)); reflexivity. }
      rewrite <- N'. symmetry. exact (keeps_ok _ _ _ _ _ K H). }
    apply sbind_ok. exists (re s1), tt. split; [|exact (alike_ok _ _ _ _ AL H)].
    clear H AL. destruct (u_staging u).
    - cbv zeta in E |- *.
      apply sbind_ok in E. destruct E as (v & [] & E1 & E). apply on_side_inv in E1.
      apply sbind_ok in E. destruct E as (v2 & q & E2 & E). apply slift_ok in E2. destruct E2 as [-> E2].
      apply sbind_ok in E. destruct E as (v3 & [] & E3 & E). apply on_side_inv in E3.
      apply sbind_ok in E. destruct E as (v4 & [] & E4 & E).
      apply sbind_ok. exists (given net v), tt. split; [subst v; reflexivity|].
      apply sbind_ok. exists (given net v), q. split; [unfold slift; rewrite E2; reflexivity|].
      apply sbind_ok. exists (given net v3), tt. split; [subst v3 v; reflexivity|].
      match type of E with ?m v4 = _ => assert (AL : alike m) end. { unfold both_sides. puts. repeat step. }
      match type of E with ?m v4 = _ => assert (K : keeps (fun u : U => rn_net (u_rn u)) m) end.
      { unfold both_sides. puts. repeat (keep_step || (cbv zeta beta)); reflexivity. }
      apply sbind_ok. exists (re v4), tt. split; [|exact (alike_ok _ _ _ _ AL E)].
      refine (ensure_given _ v3 _ _ _ _ _ E4); [subst v3 v; exact N|].
      rewrite <- N1. symmetry. exact (keeps_ok _ _ _ _ _ K E).
    - cbv zeta in E |- *.
      apply sbind_ok in E. destruct E as (v & [] & E1 & E). apply on_side_inv in E1.
      apply sbind_ok in E. destruct E as (v2 & q & E2 & E). apply slift_ok in E2. destruct E2 as [-> E2].
      apply sbind_ok in E. destruct E as (v3 & [] & E3 & E). apply on_side_inv in E3.
      apply sbind_ok in E. destruct E as (v4 & [] & E4 & E).
      apply sbind_ok. exists (given net v), tt. split; [subst v; reflexivity|].
      apply sbind_ok. exists (given net v), q. split; [unfold slift; rewrite E2; reflexivity|].
      apply sbind_ok. exists (given net v3), tt. split; [subst v3 v; reflexivity|].
      match type of E with ?m v4 = _ => assert (AL : alike m) end. { unfold both_sides. puts. repeat step. }
      match type of E with ?m v4 = _ => assert (K : keeps (fun u : U => rn_net (u_rn u)) m) end.
      { unfold both_sides. puts. repeat (keep_step || (cbv zeta beta)); reflexivity. }
      apply sbind_ok. exists (re v4), tt. split; [|exact (alike_ok _ _ _ _ AL E)].
      refine (ensure_given _ v3 _ _ _ _ _ E4); [subst v3 v; exact N|].
      rewrite <- N1. symmetry. exact (keeps_ok _ _ _ _ _ K E).
    - cbv zeta in E |- *.
      apply sbind_ok in E. destruct E as (v & q & E1 & E). apply slift_ok in E1. destruct E1 as [-> E1].
      apply sbind_ok in E. destruct E as (v3 & [] & E3 & E).
      apply sbind_ok in E. destruct E as (v4 & [] & E4 & E).
      apply sbind_ok. exists (given net u), q. split; [unfold slift; rewrite E1; reflexivity|].
      assert (E5 : rn_net (u_rn v3) = None /\
        (match rn_cap17 (u_rn (given net u)) with
         | Some _ => sret tt
         | None => put_rn (wr_cap17 (Some (nmul (lit 0.689)
             (match qh with Some x => x | None => nadd (nmul q (lit 1.022)) (fr_Btuh (lit 607)) end))))
         end) (given net u) = (given net v3, Ok tt)).
      { change (rn_cap17 (u_rn (given net u))) with (rn_cap17 (u_rn u)).
        destruct (rn_cap17 (u_rn u)); unfold sret, put_rn, smod in E3; apply pair_ok_inj in E3;
          destruct E3 as [<- _]; (split; [exact N|reflexivity]). }
      destruct E5 as [N3 E5].
      apply sbind_ok. exists (given net v3), tt. split; [exact E5|].
      match type of E with ?m v4 = _ => assert (AL : alike m) end. { unfold both_sides. puts. repeat step. }
      match type of E with ?m v4 = _ => assert (K : keeps (fun u : U => rn_net (u_rn u)) m) end.
      { unfold both_sides. puts. repeat (keep_step || (cbv zeta beta)); reflexivity. }
      apply sbind_ok. exists (re v4), tt. split; [|exact (alike_ok _ _ _ _ AL E)].
      refine (ensure_given _ v3 _ _ _ N3 _ E4).
      rewrite <- N1. symmetry. exact (keeps_ok _ _ _ _ _ K E).
  Qed.

  Lemma ensure_tabled build build' (u u' : U) net b : rn_net (u_rn u) = Some net ->
    ensure_table build u = (u', Ok b) -> ensure_table build' (re u) = (re u', Ok b).
  Proof.
    intros N E. unfold ensure_table, sbind, sget in E |- *. rewrite N in E.
    change (rn_net (u_rn (re u))) with (rn_net (u_rn u)). rewrite N.
    unfold sret in E |- *. apply pair_ok_inj in E. destruct E as [<- E]. congruence.
  Qed.
  Lemma caps_alike qc qh (u u' : U) net b : rn_net (u_rn u) = Some net ->
    capacities_from_table qc qh u = (u', Ok b) -> capacities_from_table qc qh (re u) = (re u', Ok b).
  Proof.
    intros N H. unfold capacities_from_table in H |- *.
    apply sbind_ok in H. destruct H as (s & x & E & H). unfold sget in E. apply pair_ok_inj in E.
    destruct E as [<- <-].
    apply sbind_ok. exists (re u), (re u). split; [reflexivity|].
    apply sbind_ok in H. destruct H as (s1 & [] & E & H).
    change (u_staging (re u)) with (u_staging u).
    match type of H with ?m s1 = _ => assert (AL : alike m) end.
    { puts. repeat step. }
    apply sbind_ok. exists (re s1), tt. split; [|exact (alike_ok _ _ _ _ AL H)].
    clear H AL. destruct (u_staging u).
    - cbv zeta in E |- *.
      apply sbind_ok in E. destruct E as (v & [] & E1 & E). apply on_side_inv in E1.
      apply sbind_ok in E. destruct E as (v2 & q & E2 & E). apply slift_ok in E2. destruct E2 as [-> E2].
      apply sbind_ok in E. destruct E as (v3 & [] & E3 & E). apply on_side_inv in E3.
      apply sbind_ok in E. destruct E as (v4 & [] & E4 & E).
      apply sbind_ok. exists (re v), tt. split; [subst v; reflexivity|].
      apply sbind_ok. exists (re v), q. split; [unfold slift; rewrite E2; reflexivity|].
      apply sbind_ok. exists (re v3), tt. split; [subst v3 v; reflexivity|].
      match type of E with ?m v4 = _ => assert (AL : alike m) end. { unfold both_sides. puts. repeat step. }
      apply sbind_ok. exists (re v4), tt. split; [|exact (alike_ok _ _ _ _ AL E)].
      refine (ensure_tabled _ _ v3 _ net _ _ E4). subst v3 v; exact N.
    - cbv zeta in E |- *.
      apply sbind_ok in E. destruct E as (v & [] & E1 & E). apply on_side_inv in E1.
      apply sbind_ok in E. destruct E as (v2 & q & E2 & E). apply slift_ok in E2. destruct E2 as [-> E2].
      apply sbind_ok in E. destruct E as (v3 & [] & E3 & E). apply on_side_inv in E3.
      apply sbind_ok in E. destruct E as (v4 & [] & E4 & E).
      apply sbind_ok. exists (re v), tt. split; [subst v; reflexivity|].
      apply sbind_ok. exists (re v), q. split; [unfold slift; rewrite E2; reflexivity|].
      apply sbind_ok. exists (re v3), tt. split; [subst v3 v; reflexivity|].
      match type of E with ?m v4 = _ => assert (AL : alike m) end. { unfold both_sides. puts. repeat step. }
      apply sbind_ok. exists (re v4), tt. split; [|exact (alike_ok _ _ _ _ AL E)].
      refine (ensure_tabled _ _ v3 _ net _ _ E4). subst v3 v; exact N.
    - cbv zeta in E |- *.
      apply sbind_ok in E. destruct E as (v & q & E1 & E). apply slift_ok in E1. destruct E1 as [-> E1].
      apply sbind_ok in E. destruct E as (v3 & [] & E3 & E).
      apply sbind_ok in E. destruct E as (v4 & [] & E4 & E).
      apply sbind_ok. exists (re u), q. split; [unfold slift; rewrite E1; reflexivity|].
      assert (E5 : rn_net (u_rn v3) = Some net /\
        (match rn_cap17 (u_rn (re u)) with
         | Some _ => sret tt
         | None => put_rn (wr_cap17 (Some (nmul (lit 0.689)
             (match qh with Some x => x | None => nadd (nmul q (lit 1.022)) (fr_Btuh (lit 607)) end))))
         end) (re u) = (re v3, Ok tt)).
      { change (rn_cap17 (u_rn (re u))) with (rn_cap17 (u_rn u)).
        destruct (rn_cap17 (u_rn u)); unfold sret, put_rn, smod in E3; apply pair_ok_inj in E3;
          destruct E3 as [<- _]; (split; [exact N|reflexivity]). }
      destruct E5 as [N3 E5].
      apply sbind_ok. exists (re v3), tt. split; [exact E5|].
      match type of E with ?m v4 = _ => assert (AL : alike m) end. { unfold both_sides. puts. repeat step. }
      apply sbind_ok. exists (re v4), tt. split; [|exact (alike_ok _ _ _ _ AL E)].
      exact (ensure_tabled _ _ v3 _ net _ N3 E4).
  Qed.
  Lemma alike_adopt : alike adopt_table_staging.
  Proof.
    unfold adopt_table_staging, both_sides, set_placeholder_arrays. puts. repeat step.
  Qed.
  Lemma alike_placeholders : alike set_placeholder_arrays.
  Proof. unfold set_placeholder_arrays. repeat step. Qed.
End Own.

Section Main.
  Variable psy : psychro R.
  Variable sol : solvers R.
  Notation U := (dxunit R).
  Notation M := (RESNETDXModel psy sol).
  Notation id := (fun same => same).
  Notation given' kw := (given kw id id id id).
  Notation alike' kw := (alike kw id id id id).

  Lemma built_count qc qh (u0 : U) st net : table_built qc qh u0 st net -> staging_of (p_nc net) = Ok st.
  Proof.
    intros (u1 & q & _ & _ & H). cbv zeta in H. destruct st.
    - unfold single_speed_table in H. apply rbind_ok in H. destruct H as (q' & _ & H).
      apply rbind_ok in H. destruct H as ([[[s e] h] c] & _ & H). apply single_n in H. rewrite (proj1 H). reflexivity.
    - unfold two_speed_table in H. apply rbind_ok in H. destruct H as (q' & _ & H).
      apply rbind_ok in H. destruct H as ([[[s e] h] c] & _ & H). apply two_n in H. rewrite (proj1 H). reflexivity.
    - unfold variable_speed_table in H.
      apply rbind_ok in H. destruct H as ([[[s e] h] c] & _ & H). apply neep_n in H. rewrite (proj1 H). reflexivity.
  Qed.

  Lemma init_given net a (u0 : U) : (forall p, get_kwarg_value "tabular_data" (a_kwargs a) <> KTable p) ->
    init_unit M a = Ok u0 ->
    init_unit M (with_table net a) = Ok (given' (a_kwargs (with_table net a)) net u0).
  Proof.
    intros K I. unfold init_unit in I |- *. apply rbind_ok in I. destruct I as (rn & Rn & I).
    assert (Rn' : set_system M (a_kwargs (with_table net a)) = Ok (wr_net (Some net) rn)).
    { unfold set_system in Rn |- *. cbn [a_kwargs with_table].
      destruct (forallb _ (a_kwargs a)) eqn:F in Rn; [|discriminate].
      cbn [forallb]. rewrite F. cbn [fst].
      change (existsb (String.eqb "tabular_data") (md_allowed M)) with true. cbn [andb].
      cbn [List.find fst]. change (String.eqb "base_model" "tabular_data") with false. cbv iota.
      apply rbind_ok in Rn. destruct Rn as ([] & Rb & Rn). rewrite Rb. cbn [rbind].
      cbn [md_process RESNETDXModel] in Rn |- *. unfold resnet_process_kwargs in Rn |- *.
      apply rbind_ok in Rn. destruct Rn as (tb & _ & Rn).
      change (get_kwarg_value "tabular_data" (("tabular_data"%string, KTable net) :: a_kwargs a)) with (KTable net).
      change (get_kwarg_value "motor_type" (("tabular_data"%string, KTable net) :: a_kwargs a))
        with (get_kwarg_value "motor_type" (a_kwargs a)).
      change (get_kwarg_value "rated_net_heating_capacity_17" (("tabular_data"%string, KTable net) :: a_kwargs a))
        with (get_kwarg_value "rated_net_heating_capacity_17" (a_kwargs a)).
      change (get_kwarg_value "min_net_total_cooling_capacity_ratio_95" (("tabular_data"%string, KTable net) :: a_kwargs a))
        with (get_kwarg_value "min_net_total_cooling_capacity_ratio_95" (a_kwargs a)).
      change (get_kwarg_value "rated_net_total_cooling_cop_82_min" (("tabular_data"%string, KTable net) :: a_kwargs a))
        with (get_kwarg_value "rated_net_total_cooling_cop_82_min" (a_kwargs a)).
      cbn [kw_table rbind].
      apply rbind_ok in Rn. destruct Rn as (x0 & R0 & Rn). rewrite R0. cbn [rbind].
      apply rbind_ok in Rn. destruct Rn as (x1 & R1 & Rn). rewrite R1. cbn [rbind].
      apply rbind_ok in Rn. destruct Rn as (x2 & R2 & Rn). rewrite R2. cbn [rbind].
      apply rbind_ok in Rn. destruct Rn as (x3 & R3 & Rn). rewrite R3. cbn [rbind].
      apply Ok_inj in Rn. subst rn. reflexivity. }
    rewrite Rn'. cbn [rbind]. cbv zeta in I |- *.
    apply rbind_ok in I. destruct I as (stg & St & I). 
    change (a_staging (with_table net a)) with (a_staging a).
    change (a_hcap (with_table net a)) with (a_hcap a). rewrite St. cbn [rbind].
    apply Ok_inj in I. subst u0. reflexivity.
  Qed.

  Lemma init_speeds a (u0 : U) x : init_unit M a = Ok u0 -> a_ccap a = Scalar x -> (forall l, a_hcap a <> Some (Many l)) ->
    sd_n (u_c u0) = speeds_of (u_staging u0) /\ sd_n (u_h u0) = speeds_of (u_staging u0).
  Proof.
    intros I Q NL. unfold init_unit in I. apply rbind_ok in I. destruct I as (rn & _ & I). cbv zeta in I.
    apply rbind_ok in I. destruct I as (stg & St & I). apply Ok_inj in I. subst u0.
    cbn [u_c u_h sd_n init_side u_staging]. rewrite Q.
    destruct (a_hcap a) as [[y|l]|]; [|exfalso; exact (NL l eq_refl)|]; cbn [count_speeds] in St |- *;
      destruct (a_staging a) as [[]|]; apply Ok_inj in St; subst stg; split; reflexivity.
  Qed.

  Lemma adopt_given kw net (u : U) : staging_of (p_nc net) = Ok (u_staging u) ->
    sd_n (u_c u) = speeds_of (u_staging u) -> sd_n (u_h u) = speeds_of (u_staging u) ->
    set_placeholder_arrays u = (u, Ok tt) ->
    adopt_table_staging (given' kw net u) = (given' kw net u, Ok tt).
  Proof.
    intros S N1 N2 P. unfold adopt_table_staging, sbind, sget.
    assert (Nt : rn_net (u_rn (given' kw net u)) = Some net) by reflexivity. rewrite Nt, S. unfold slift.
    unfold smod at 1. unfold both_sides, on_side, sbind, smod. cbn [side_of wu_side].
    match goal with |- set_placeholder_arrays ?v = _ => assert (V : v = given' kw net u) end.
    { destruct u as [a1 a2 a3 a4 a5 a6 a7 a8 a9 a10 a11 a12 a13 a14 a15 c h a18 a19 a20 a21 a22 a23 a24 r].
      destruct c, h. cbn in N1, N2. subst. reflexivity. }
    rewrite V. unfold set_placeholder_arrays, smod in P |- *. apply pair_ok_inj in P. destruct P as [P _].
    f_equal. exact (f_equal (given' kw net) P).
  Qed.

  Lemma placeholders_twice (u u1 : U) : set_placeholder_arrays u = (u1, Ok tt) ->
    set_placeholder_arrays u1 = (u1, Ok tt).
  Proof.
    intros P.
    destruct u as [a1 a2 a3 a4 a5 a6 a7 a8 a9 a10 a11 a12 a13 a14 a15 c h a18 a19 a20 a21 a22 a23 a24 r].
    destruct c, h. unfold set_placeholder_arrays, smod in P |- *. cbn in P. apply pair_ok_inj in P.
    destruct P as [<- _]. vm_compute. reflexivity.
  Qed.

  Lemma own_table a (u : U) net :
    (forall p, get_kwarg_value "tabular_data" (a_kwargs a) <> KTable p) ->
    DXUnit psy sol M a = Ok u -> rn_net (u_rn u) = Some net ->
    DXUnit psy sol M (with_table net a) = Ok (remembering (a_kwargs (with_table net a)) u).
  Proof.
    intros K D N. set (kw := a_kwargs (with_table net a)).
    unfold DXUnit in D |- *. apply rbind_ok in D. destruct D as (u0 & I & D).
    rewrite (init_given net a u0 K I). fold kw. cbn [rbind].
    unfold ex in D |- *. destruct (finish_unit psy sol M a u0) as [u9 [[]|e]] eqn:F; [|discriminate].
    apply Ok_inj in D. subst u9.
    assert (G : finish_unit psy sol M (with_table net a) (given' kw net u0) = (remembering kw u, Ok tt));
      [|rewrite G; reflexivity].
    unfold finish_unit in F |- *.
    change (a_ccap (with_table net a)) with (a_ccap a). change (a_hcap (with_table net a)) with (a_hcap a).
    change (a_fan (with_table net a)) with (a_fan a). change (a_crank (with_table net a)) with (a_crank a).
    change (a_net_ccop (with_table net a)) with (a_net_ccop a).
    change (a_gross_ccop (with_table net a)) with (a_gross_ccop a).
    change (a_net_hcop (with_table net a)) with (a_net_hcop a).
    change (a_gross_hcop (with_table net a)) with (a_gross_hcop a).
    apply sbind_ok in F. destruct F as (u1 & [] & P & F).
    apply sbind_ok in F. destruct F as (u2 & [] & H & F).
    apply sbind_ok. exists (given' kw net u1), tt. split.
    { unfold set_placeholder_arrays, smod in P |- *. apply pair_ok_inj in P. destruct P as [<- _]. reflexivity. }
    match type of F with ?m u2 = _ => assert (AL : alike' kw m) end.
    { apply alike_bind; [apply alike_reset_esp|]. intros _.
      apply alike_get; [reflexivity|]. intros v.
      apply alike_bind; [apply alike_fold; intros; apply alike_put_gross|]. intros _.
      apply alike_bind; [apply alike_fold; intros; apply alike_put_gross|]. intros _.
      apply alike_bind; [destruct (a_crank a); [apply alike_ret|apply alike_read; reflexivity]|]. intros crank.
      apply alike_bind; [apply alike_mod; reflexivity|]. intros _.
      apply alike_bind; [apply alike_conditions|]. intros _.
      apply alike_bind; [apply alike_sensible|]. intros _.
      apply alike_bind; [apply alike_lift|]. intros _.
      apply alike_bind; [apply alike_lift|]. intros _.
      apply alike_bind; [apply alike_opt, alike_net_cop|]. intros _.
      apply alike_bind; [apply alike_opt, alike_gross_cop|]. intros _.
      apply alike_bind; [apply alike_opt, alike_net_cop|]. intros _.
      apply alike_bind; [apply alike_opt, alike_gross_cop|]. intros _.
      apply alike_bind; [apply alike_read; reflexivity|]. intros _.
      apply alike_bind; [apply alike_read; reflexivity|]. intros _.
      apply alike_read; reflexivity. }
    apply sbind_ok. exists (remembering kw u2), tt. split; [|exact (alike_ok _ _ _ _ _ _ _ _ _ AL F)].
    assert (N2 : rn_net (u_rn u2) = Some net).
    { cbn [md_set_net_cop md_set_gross_cop RESNETDXModel] in F.
      match type of F with ?m u2 = _ => assert (KR : keeps rview m) end.
      { repeat (first [ apply rview_esp | apply rview_put_gross | apply rview_conditions | apply rview_sensible
          | apply rview_net_cop | apply rview_gross_cop | keep_step
          | match goal with |- keeps _ (opt_set _ ?o) => destruct o; cbn [opt_set] end ]; cbv zeta beta). }
      pose proof (keeps_ok _ _ _ _ _ KR F) as V. unfold rview in V. congruence. }
    clear F AL.
    cbn [md_set_net_capacities_and_fan RESNETDXModel] in H |- *. unfold resnet_set_net_capacities_and_fan in H |- *.
    apply sbind_ok in H. destruct H as (s1 & [] & E1 & H).
    apply sbind_ok in H. destruct H as (s2 & [] & E2 & H).
    assert (N1 : rn_net (u_rn u1) = None).
    { unfold set_placeholder_arrays, smod in P. apply pair_ok_inj in P. destruct P as [<- _].
      destruct (init_table psy sol a u0 I) as [_ T].
      destruct (get_kwarg_value "tabular_data" (a_kwargs a)) as [| | |p| |]; try contradiction; [exact T|].
      exfalso. exact (K p eq_refl). }
    assert (S1 : s1 = u1).
    { unfold adopt_table_staging, sbind, sget in E1. rewrite N1 in E1. apply pair_ok_inj in E1. symmetry. exact (proj1 E1). }
    subst s1.
    match type of H with ?m s2 = _ => assert (AL : alike' kw m) end.
    { apply alike_bind; [apply alike_set_fan|]. intros _. apply alike_bind; [apply alike_gross|]. intros _.
      apply alike_set_lower. }
    assert (N3 : rn_net (u_rn s2) = Some net).
    { apply sbind_ok in H. destruct H as (s3 & [] & E3 & H). apply sbind_ok in H. destruct H as (s4 & [] & E4 & H).
      pose proof (keeps_ok nview _ _ _ _ (nview_set_fan sol (a_fan a)) E3) as V3. unfold nview in V3.
      assert (V4 : rn_net (u_rn s3) = rn_net (u_rn s2)) by congruence.
      pose proof (keeps_ok _ _ _ _ _ (lower_net sol) H) as V5. cbv beta in V5.
      destruct (rn_net (u_rn s3)) as [net'|] eqn:E.
      - destruct (gross_inv net' _ _ _ E E4) as (_ & _ & _ & _ & _ & Q & _). congruence.
      - unfold setup_gross_table, sbind at 1, sget in E4. rewrite E in E4. unfold sret in E4.
        apply pair_ok_inj in E4. destruct E4 as [<- _]. congruence. }
    assert (NL : forall l, a_hcap a <> Some (Many l)).
    { intros l HL. rewrite HL in E2. apply sbind_ok in E2. destruct E2 as (z & [] & Z & E2).
      destruct (a_ccap a) as [x|lc]; [discriminate|].
      apply on_side_inv in Z. apply on_side_inv in E2. subst s2 z.
      change (rn_net (u_rn u1) = Some net) in N3. congruence. }
    assert (C : exists qh, capacities_from_table (a_ccap a) qh u1 = (s2, Ok tt)).
    { destruct (a_hcap a) as [[x|l]|]; [|exfalso; exact (NL l eq_refl)|]; eexists; exact E2. }
    assert (B : exists qh, table_built (a_ccap a) qh u1 (u_staging u1) net).
    { destruct C as (qh & C). destruct (caps_tabled _ _ _ _ _ C) as (S2 & net' & (T1 & _ & _ & _ & T3) & _).
      exists (option_map Scalar qh). destruct T3 as [T3|[_ T3]]; [congruence|]. rewrite S2 in T3. congruence. }
    destruct B as (qh & B). pose proof (built_count _ _ _ _ _ B) as St.
    destruct B as (_ & q & _ & Q & _).
    destruct (init_speeds a u0 q I Q NL) as [I1 I2].
    apply sbind_ok. exists (given' kw net u1), tt. split.
    { apply adopt_given; [exact St| | |exact (placeholders_twice _ _ P)];
        unfold set_placeholder_arrays, smod in P; apply pair_ok_inj in P; destruct P as [<- _]; assumption. }
    apply sbind_ok. exists (remembering kw s2), tt. split; [|exact (alike_ok _ _ _ _ _ _ _ _ _ AL H)].
    destruct (a_hcap a) as [[x|l]|]; [|exfalso; exact (NL l eq_refl)|]; exact (caps_given kw id id id id _ _ _ _ _ _ N1 N3 E2).
  Qed.

  Lemma same_results kw (u : U) :
    seer sol M (remembering kw u) = seer sol M u
    /\ (forall r, hspf sol M (remembering kw u) r = hspf sol M u r)
    /\ forall c, eer sol M (remembering kw u) c = eer sol M u c
      /\ net_total_cooling_capacity sol M (remembering kw u) c = net_total_cooling_capacity sol M u c
      /\ net_sensible_cooling_capacity sol M (remembering kw u) c
         = net_sensible_cooling_capacity sol M u c
      /\ net_cooling_power sol M (remembering kw u) c = net_cooling_power sol M u c
      /\ net_integrated_heating_capacity sol M (remembering kw u) c
         = net_integrated_heating_capacity sol M u c
      /\ net_integrated_heating_power sol M (remembering kw u) c
         = net_integrated_heating_power sol M u c.
  Proof. split; [reflexivity|]. split; [reflexivity|]. intros c. repeat split; reflexivity. Qed.

  (** ** Ratings beside a table *)
  Lemma unless_noop m o (v : U) net : rn_net (u_rn v) = Some net ->
    opt_set (A:=num_or_list R) (fun x => unless_table (m x)) o v = (v, Ok tt).
  Proof.
    intros N. destruct o; [|reflexivity]. cbn [opt_set]. unfold unless_table, sbind, sget. rewrite N. reflexivity.
  Qed.

  Lemma table_overrides s e h nc gc nh gh a (u : U) p :
    get_kwarg_value "tabular_data" (a_kwargs a) = KTable p ->
    (nc <> None \/ gc <> None) -> (nh <> None \/ gh <> None) ->
    DXUnit psy sol M a = Ok u ->
    DXUnit psy sol M (with_efficiency s e h nc gc nh gh a)
      = Ok (rated_as s (default_eer s e) h nh u).
  Proof.
    intros K C1 C2 D. set (a' := with_efficiency s e h nc gc nh gh a).
    set (r := re (a_kwargs a) (fun _ => s) (fun _ => default_eer s e) (fun _ => h) (fun _ => nh)).
    assert (Kw : u_kwargs u = a_kwargs a).
    { refine (proj1 (kept_settings psy sol M a u _ D)). unfold library_model. simpl. tauto. }
    assert (G : DXUnit psy sol M a' = Ok (r u)).
    2:{ rewrite G. unfold r, re, rated_as. rewrite Kw. reflexivity. }
    clear Kw. unfold DXUnit in D |- *. apply rbind_ok in D. destruct D as (u0 & I & D).
    assert (I' : init_unit M a' = Ok (r u0)).
    { unfold init_unit in I |- *. change (a_kwargs a') with (a_kwargs a). apply rbind_ok in I. destruct I as (rn & Rn & I).
      rewrite Rn. cbn [rbind]. cbv zeta in I |- *. apply rbind_ok in I. destruct I as (stg & St & I).
      change (a_staging a') with (a_staging a). change (a_hcap a') with (a_hcap a). rewrite St. cbn [rbind].
      apply Ok_inj in I. subst u0. reflexivity. }
    rewrite I'. cbn [rbind].
    unfold ex in D |- *. destruct (finish_unit psy sol M a u0) as [u9 [[]|er]] eqn:F; [|discriminate].
    apply Ok_inj in D. subst u9.
    assert (G : finish_unit psy sol M a' (r u0) = (r u, Ok tt)); [|rewrite G; reflexivity].
    unfold finish_unit in F |- *.
    change (a_ccap a') with (a_ccap a). change (a_hcap a') with (a_hcap a).
    change (a_fan a') with (a_fan a). change (a_crank a') with (a_crank a).
    change (a_net_ccop a') with nc. change (a_gross_ccop a') with gc.
    change (a_net_hcop a') with nh. change (a_gross_hcop a') with gh.
    assert (R : forall A (m : st U A) v v' x, OwnTable.alike (a_kwargs a) (fun _ => s) (fun _ => default_eer s e)
              (fun _ => h) (fun _ => nh) m -> m v = (v', Ok x) -> m (r v) = (r v', Ok x)).
    { intros A m v v' x. apply alike_ok. }
    apply sbind_ok in F. destruct F as (u1 & [] & P & F).
    apply sbind_ok. exists (r u1), tt. split; [exact (R _ _ _ _ _ (alike_placeholders _ _ _ _ _) P)|].
    apply sbind_ok in F. destruct F as (u2 & [] & H & F).
    assert (N1 : rn_net (u_rn u1) = Some p).
    { destruct (init_table psy sol a u0 I) as [_ T]. rewrite K in T.
      unfold set_placeholder_arrays, smod in P. apply pair_ok_inj in P. destruct P as [<- _]. exact T. }
    cbn [md_set_net_capacities_and_fan RESNETDXModel] in H |- *.
    apply sbind_ok. exists (r u2), tt. split.
    - unfold resnet_set_net_capacities_and_fan in H |- *.
      apply sbind_ok in H. destruct H as (s1 & [] & E1 & H).
      apply sbind_ok in H. destruct H as (s2 & [] & E2 & H).
      apply sbind_ok. exists (r s1), tt. split; [exact (R _ _ _ _ _ (alike_adopt _ _ _ _ _) E1)|].
      destruct (adopt_inv _ _ _ E1) as (R1 & _).
      assert (N2 : rn_net (u_rn s1) = Some p) by congruence.
      match type of H with ?m s2 = _ => assert (AL : OwnTable.alike (a_kwargs a) (fun _ => s)
          (fun _ => default_eer s e) (fun _ => h) (fun _ => nh) m) end.
      { apply alike_bind; [apply alike_set_fan|]. intros _. apply alike_bind; [apply alike_gross|]. intros _.
        apply alike_set_lower. }
      apply sbind_ok. exists (r s2), tt. split; [|exact (R _ _ _ _ _ AL H)].
      destruct (a_hcap a) as [[x|l]|].
      + exact (caps_alike _ _ _ _ _ _ _ _ _ _ _ N2 E2).
      + apply sbind_ok in E2. destruct E2 as (z & [] & Z & E2).
        destruct (a_ccap a) as [x|lc]; [discriminate|].
        apply on_side_inv in Z. apply on_side_inv in E2. subst s2 z. reflexivity.
      + exact (caps_alike _ _ _ _ _ _ _ _ _ _ _ N2 E2).
    - cbn [md_set_net_cop md_set_gross_cop RESNETDXModel] in F |- *.
      assert (N2 : rn_net (u_rn u2) = Some p).
      { clear F. unfold resnet_set_net_capacities_and_fan in H.
        apply sbind_ok in H. destruct H as (s1 & [] & E1 & H).
        apply sbind_ok in H. destruct H as (s2 & [] & E2 & H).
        apply sbind_ok in H. destruct H as (s3 & [] & E3 & H). apply sbind_ok in H. destruct H as (s4 & [] & E4 & H).
        destruct (adopt_inv _ _ _ E1) as (R1 & _).
        assert (Ns : rn_net (u_rn s2) = Some p).
        { destruct (a_hcap a) as [[x|l]|].
          - destruct (caps_tabled _ _ _ _ _ E2) as (_ & net' & (T1 & _ & _ & _ & T3) & _).
            destruct T3 as [T3|[T3 _]]; congruence.
          - apply sbind_ok in E2. destruct E2 as (z & [] & Z & E2).
            destruct (a_ccap a) as [x|lc]; [discriminate|].
            apply on_side_inv in Z. apply on_side_inv in E2. subst s2 z. rewrite <- N1, <- R1. reflexivity.
          - destruct (caps_tabled _ _ _ _ _ E2) as (_ & net' & (T1 & _ & _ & _ & T3) & _).
            destruct T3 as [T3|[T3 _]]; congruence. }
        pose proof (keeps_ok nview _ _ _ _ (nview_set_fan sol (a_fan a)) E3) as V3. unfold nview in V3.
        assert (V4 : rn_net (u_rn s3) = rn_net (u_rn s2)) by congruence.
        pose proof (keeps_ok _ _ _ _ _ (lower_net sol) H) as V5. cbv beta in V5.
        rewrite Ns in V4. destruct (gross_inv p _ _ _ V4 E4) as (_ & _ & _ & _ & _ & Q & _). congruence. }
      apply sbind_ok in F. destruct F as (s3 & [] & E3 & F).
      apply sbind_ok. exists (r s3), tt. split; [exact (R _ _ _ _ _ (alike_reset_esp _ _ _ _ _) E3)|].
      apply sbind_ok in F. destruct F as (s4 & x & E4 & F). unfold sget in E4. apply pair_ok_inj in E4.
      destruct E4 as [<- <-].
      apply sbind_ok. exists (r s3), (r s3). split; [reflexivity|].
      change (sd_n (u_c (r s3))) with (sd_n (u_c s3)). change (sd_n (u_h (r s3))) with (sd_n (u_h s3)).
      apply sbind_ok in F. destruct F as (s5 & [] & E5 & F).
      apply sbind_ok. exists (r s5), tt. split.
      { refine (R _ _ _ _ _ _ E5). apply alike_fold. intros; apply alike_put_gross. }
      apply sbind_ok in F. destruct F as (s6 & [] & E6 & F).
      apply sbind_ok. exists (r s6), tt. split.
      { refine (R _ _ _ _ _ _ E6). apply alike_fold. intros; apply alike_put_gross. }
      apply sbind_ok in F. destruct F as (s7 & crank & E7 & F).
      apply sbind_ok. exists (r s7), crank. split.
      { refine (R _ _ _ _ _ _ E7). destruct (a_crank a); [apply alike_ret|apply alike_read; reflexivity]. }
      apply sbind_ok in F. destruct F as (s8 & [] & E8 & F).
      apply sbind_ok. exists (r s8), tt. split.
      { refine (R _ _ _ _ _ _ E8). apply alike_mod; reflexivity. }
      apply sbind_ok in F. destruct F as (s9 & [] & E9 & F).
      apply sbind_ok. exists (r s9), tt. split; [exact (R _ _ _ _ _ (alike_conditions _ _ _ _ _ psy) E9)|].
      apply sbind_ok in F. destruct F as (s10 & [] & E10 & F).
      apply sbind_ok. exists (r s10), tt. split; [exact (R _ _ _ _ _ (alike_sensible _ _ _ _ _ psy sol) E10)|].
      assert (N10 : rn_net (u_rn s10) = Some p).
      { assert (V3 := keeps_ok rview _ _ _ _ rview_esp E3).
        assert (V5 : rview s5 = rview s3).
        { refine (keeps_ok rview _ _ _ _ _ E5). apply keeps_fold. intros. apply rview_put_gross. }
        assert (V6 : rview s6 = rview s5).
        { refine (keeps_ok rview _ _ _ _ _ E6). apply keeps_fold. intros. apply rview_put_gross. }
        assert (V7 : rview s7 = rview s6).
        { refine (keeps_ok rview _ _ _ _ _ E7). destruct (a_crank a); repeat keep_step. }
        assert (V8 : rview s8 = rview s7).
        { refine (keeps_ok rview _ _ _ _ _ E8). repeat keep_step. }
        assert (V9 := keeps_ok rview _ _ _ _ (rview_conditions psy) E9).
        assert (V10 := keeps_ok rview _ _ _ _ (rview_sensible psy sol M) E10).
        assert (V : rview s10 = rview u2) by (etransitivity; [exact V10|]; congruence).
        rewrite <- N2. exact (f_equal (fun v => rn_net (fst (fst (fst (fst v))))) V). }
      apply sbind_ok in F. destruct F as (s11 & [] & E11 & F). apply slift_ok in E11. destruct E11 as [-> _].
      apply sbind_ok. exists (r s10), tt. split.
      { destruct nc; [reflexivity|]. destruct gc; [reflexivity|]. destruct C1; congruence. }
      apply sbind_ok in F. destruct F as (s12 & [] & E12 & F). apply slift_ok in E12. destruct E12 as [-> _].
      apply sbind_ok. exists (r s10), tt. split.
      { destruct nh; [reflexivity|]. destruct gh; [reflexivity|]. destruct C2; congruence. }
      do 4 (apply sbind_ok in F; destruct F as (z & [] & E & F); rewrite (unless_noop _ _ _ _ N10) in E;
        apply pair_ok_inj in E; destruct E as [<- _];
        apply sbind_ok; exists (r s10), tt; split; [apply (unless_noop _ _ (r s10) p); exact N10|]).
      refine (R _ _ _ _ _ _ F). repeat (apply alike_bind; [apply alike_read; reflexivity|]; intros _).
      apply alike_read; reflexivity.
  Qed.

  Lemma ratings_overridden a (u : U) p s e h nc gc nh gh :
    get_kwarg_value "tabular_data" (a_kwargs a) = KTable p ->
    (nc <> None \/ gc <> None) -> (nh <> None \/ gh <> None) ->
    DXUnit psy sol M a = Ok u ->
    exists e', DXUnit psy sol M (with_efficiency s e h nc gc nh gh a) = Ok (rated_as s e' h nh u).
  Proof. intros K C1 C2 D. eexists. exact (table_overrides s e h nc gc nh gh a u p K C1 C2 D). Qed.

  Lemma same_ratings s e h c (u : U) :
    seer sol M (rated_as s e h c u) = seer sol M u
    /\ (forall r, hspf sol M (rated_as s e h c u) r = hspf sol M u r)
    /\ forall k, eer sol M (rated_as s e h c u) k = eer sol M u k
      /\ net_total_cooling_capacity sol M (rated_as s e h c u) k = net_total_cooling_capacity sol M u k
      /\ net_sensible_cooling_capacity sol M (rated_as s e h c u) k
         = net_sensible_cooling_capacity sol M u k
      /\ net_cooling_power sol M (rated_as s e h c u) k = net_cooling_power sol M u k
      /\ net_integrated_heating_capacity sol M (rated_as s e h c u) k
         = net_integrated_heating_capacity sol M u k
      /\ net_integrated_heating_power sol M (rated_as s e h c u) k
         = net_integrated_heating_power sol M u k.
  Proof. split; [reflexivity|]. split; [reflexivity|]. intros k. repeat split; reflexivity. Qed.
End Main.
