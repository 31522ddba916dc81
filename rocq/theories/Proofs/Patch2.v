(** The constructor of a RESNET unit, with other heating efficiency inputs. *)
From Coq Require Import Reals List Bool String.
From Verif.Base Require Import Num Res Tac.
From Verif.Model Require Import Units Util Psychrometrics Conditions Defrost Fan Curves
  Tabular Unit NREL BaseModel Title24 Resnet DXUnit.
From Verif.Proofs Require Import Patch.
Import ListNotations.
Local Open Scope R_scope.

Ltac mute_step :=
  cbv zeta beta;
  lazymatch goal with
  | |- mute (sret _) => apply mute_ret
  | |- mute (slift _) => apply mute_lift
  | |- mute (sread _) => apply mute_read
  | |- mute sget => apply mute_get
  | |- mute (sbind _ _) => apply mute_bind; [|intros ?]
  | |- mute (sfold _ _) => apply mute_fold; intros ?
  | |- mute (match ?x with _ => _ end) => destruct x
  | |- mute (side_put Heating _ _ _ _) =>
      apply mute_side_put;
      first [apply mute_net_cop | apply mute_net_power | apply mute_gross_power | apply mute_gross_cop]
  | |- mute (on_side Heating _) =>
      apply mute_on_side;
      first [apply mute_net_cop | apply mute_net_power | apply mute_gross_power | apply mute_gross_cop]
  end.

Lemma mute_nrel_net v : mute (nrel_set_net_cop Heating v).
Proof.
  unfold nrel_set_net_cop, derive_from_net_cop, set_comp, set_entry. destruct v; repeat mute_step.
Qed.
Lemma mute_nrel_gross v : mute (nrel_set_gross_cop Heating v).
Proof.
  unfold nrel_set_gross_cop, derive_from_gross_cop, set_comp, set_entry. destruct v; repeat mute_step.
Qed.
Lemma mute_unless m : mute m -> mute (unless_table m).
Proof. intros H. unfold unless_table. repeat mute_step. exact H. Qed.

Lemma comm_placeholders : comm set_placeholder_arrays.
Proof.
  apply comm_mod. intros x u.
  exists (let e := repeat (@None R) (sd_n (u_h u)) in
          mkX (x_hspf x) (x_hcop x) e e e e (x_cd x) (x_net x) (x_gross x)).
  reflexivity.
Qed.

(** Reading the tables. *)
Ltac rn_get :=
  apply comm_get;
  [ let x := fresh "x" in let u := fresh "u" in intros x u;
    cbn [u_rn patch rn_net rn_gross patch_rn];
    destruct (rn_net (u_rn u)); reflexivity
  | intros ?].

Lemma comm_adopt : comm adopt_table_staging.
Proof.
  unfold adopt_table_staging. rn_get. destruct (rn_net (u_rn u)); [|apply comm_ret].
  unfold both_sides, on_side. cbn [side_of wu_side].
  repeat first [comm_step | apply comm_placeholders].
Qed.

(** The tables: heating COP and HSPF enter heating power only. *)
Definition same_but_hp (p p' : perf R) : Prop := exists t, p' = patch_perf t p.

Ltac common H H' :=
  repeat match type of H with
  | rbind ?m _ = Ok _ =>
      match type of H' with
      | rbind m _ = Ok _ =>
          let x := fresh "x" in destruct m as [x|?]; cbn [rbind] in H, H'; [|discriminate H]
      end
  end.
Ltac alone H :=
  repeat match type of H with
  | rbind ?m _ = Ok _ =>
      let x := fresh "x" in destruct m as [x|?]; cbn [rbind] in H; [|discriminate H]
  end.

Lemma finish_same qc pc qh ph ph' p p' :
  finish qc pc qh ph = Ok p -> finish qc pc qh ph' = Ok p' -> same_but_hp p p'.
Proof.
  unfold finish, make_perf. intros H H'. common H H'. alone H. alone H'.
  injection H as <-. injection H' as <-. eexists. reflexivity.
Qed.

Lemma single_same q s e qh q17 h h' tmax tmin c c' cd p p' :
  make_single_speed_model_data q s e qh q17 h tmax tmin c cd = Ok p ->
  make_single_speed_model_data q s e qh q17 h' tmax tmin c' cd = Ok p' -> same_but_hp p p'.
Proof.
  unfold make_single_speed_model_data. cbv zeta. intros H H'.
  common H H'. alone H. alone H'. exact (finish_same _ _ _ _ _ _ _ H H').
Qed.
Lemma two_same q s e qh q17 h h' tmax tmin k c c' p p' :
  make_two_speed_model_data q s e qh q17 h tmax tmin k c = Ok p ->
  make_two_speed_model_data q s e qh q17 h' tmax tmin k c' = Ok p' -> same_but_hp p p'.
Proof.
  unfold make_two_speed_model_data. cbv zeta. intros H H'.
  common H H'. alone H. alone H'. exact (finish_same _ _ _ _ _ _ _ H H').
Qed.
Lemma neep_same q s e qh q17 h h' tmax tmin r k c c' p p' :
  make_neep_statistical_model_data q s e qh q17 h tmax tmin r k c = Ok p ->
  make_neep_statistical_model_data q s e qh q17 h' tmax tmin r k c' = Ok p' -> same_but_hp p p'.
Proof.
  unfold make_neep_statistical_model_data. cbv zeta. intros H H'.
  common H H'. alone H. alone H'. exact (finish_same _ _ _ _ _ _ _ H H').
Qed.

Lemma same_put p p' : same_but_hp p p' ->
  relok (put_rn (wr_net (Some p))) (put_rn (wr_net (Some p'))).
Proof.
  intros [t ->] x u u1 a u1' a' E E'. unfold put_rn, smod in E, E'. inversion E; inversion E'.
  split; [reflexivity|].
  exists (mkX (x_hspf x) (x_hcop x) (x_net_cop x) (x_net_power x) (x_gross_power x)
            (x_gross_cop x) (x_cd x) t (x_gross x)).
  reflexivity.
Qed.

(** What a table builder makes of the two units. *)
Definition same_build (build : U -> res (perf R)) : Prop :=
  forall x u p p', build u = Ok p -> build (patch x u) = Ok p' -> same_but_hp p p'.

Lemma relok_ensure build : same_build build -> relok (ensure_table build) (ensure_table build).
Proof.
  intros H x u u1 a u1' a' E E'. unfold ensure_table, sbind, sget in E, E'.
  cbn [u_rn patch rn_net patch_rn] in E'.
  destruct (rn_net (u_rn u)) as [n|] eqn:N; cbn [option_map] in E'.
  - inversion E; inversion E'; subst. split; [reflexivity|]. exists x. reflexivity.
  - unfold slift in E, E'. destruct (build u) as [p|] eqn:B; [|discriminate].
    destruct (build (patch x u)) as [p'|] eqn:B'; [|discriminate].
    exact (same_put p p' (H x u p p' B B') x u u1 a u1' a' E E').
Qed.

Lemma inputs_same b x u r r' : rating_inputs b u = Ok r -> rating_inputs b (patch x u) = Ok r' ->
  fst (fst r') = fst (fst r).
Proof.
  unfold rating_inputs. intros H H'. cbn [u_seer u_eer patch] in H'. common H H'. alone H. alone H'.
  injection H as <-. injection H' as <-. reflexivity.
Qed.

Lemma single_build q h : same_build (fun u => single_speed_table u q h).
Proof.
  intros x u p p' H H'. unfold single_speed_table in H, H'. common H H'.
  destruct (rating_inputs true u) as [[[[s e] hh] c]|] eqn:E; cbn [rbind] in H; [|discriminate].
  destruct (rating_inputs true (patch x u)) as [[[[s' e'] hh'] c']|] eqn:E'; cbn [rbind] in H';
    [|discriminate].
  pose proof (inputs_same _ _ _ _ _ E E') as K. cbn [fst] in K. inversion K; subst.
  exact (single_same _ _ _ _ _ _ _ _ _ _ _ _ _ _ H H').
Qed.
Lemma two_build q h : same_build (fun u => two_speed_table u q h).
Proof.
  intros x u p p' H H'. unfold two_speed_table in H, H'. common H H'.
  cbn [u_rn patch rn_cop82 patch_rn] in H'.
  destruct (rating_inputs (absent (rn_cop82 (u_rn u))) u) as [[[[s e] hh] c]|] eqn:E;
    cbn [rbind] in H; [|discriminate].
  destruct (rating_inputs _ (patch x u)) as [[[[s' e'] hh'] c']|] eqn:E'; cbn [rbind] in H';
    [|discriminate].
  pose proof (inputs_same _ _ _ _ _ E E') as K. cbn [fst] in K. inversion K; subst.
  exact (two_same _ _ _ _ _ _ _ _ _ _ _ _ _ _ H H').
Qed.
Lemma variable_build q h : same_build (fun u => variable_speed_table u q h).
Proof.
  intros x u p p' H H'. unfold variable_speed_table in H, H'.
  cbn [u_rn patch rn_cop82 patch_rn] in H'.
  destruct (rating_inputs (absent (rn_cop82 (u_rn u))) u) as [[[[s e] hh] c]|] eqn:E;
    cbn [rbind] in H; [|discriminate].
  destruct (rating_inputs _ (patch x u)) as [[[[s' e'] hh'] c']|] eqn:E'; cbn [rbind] in H';
    [|discriminate].
  pose proof (inputs_same _ _ _ _ _ E E') as K. cbn [fst] in K. inversion K; subst.
  exact (neep_same _ _ _ _ _ _ _ _ _ _ _ _ _ _ _ H H').
Qed.

Lemma relok_get {B} (k : U -> st U B) :
  (forall x u, relok (k u) (k (patch x u))) -> relok (sbind sget k) (sbind sget k).
Proof.
  intros H x u u1 a u1' a' E E'. unfold sbind, sget in E, E'. exact (H x u x u u1 a u1' a' E E').
Qed.

Lemma relok_capacities qc qh : relok (capacities_from_table qc qh) (capacities_from_table qc qh).
Proof.
  unfold capacities_from_table. apply relok_get. intros x u. cbn [u_staging patch].
  apply relok_bind.
  - destruct (u_staging u).
    + repeat (first
        [ apply relok_ensure; first [apply single_build | apply two_build]
        | apply comm_relok; unfold both_sides, on_side, put_rn; cbn [side_of wu_side];
          repeat comm_step; fail
        | apply relok_bind; [|intros ?] ]; cbv zeta).
    + repeat (first
        [ apply relok_ensure; first [apply single_build | apply two_build]
        | apply comm_relok; unfold both_sides, on_side, put_rn; cbn [side_of wu_side];
          repeat comm_step; fail
        | apply relok_bind; [|intros ?] ]; cbv zeta).
    + apply relok_bind; [apply comm_relok, comm_lift|intros q]. cbv zeta.
      apply relok_bind.
      { cbn [u_rn patch rn_cap17 patch_rn]. destruct (rn_cap17 (u_rn u)); apply comm_relok;
          unfold put_rn; repeat comm_step. }
      intros []. apply relok_bind; [apply relok_ensure, variable_build|]. intros [].
      apply comm_relok; unfold both_sides, on_side, put_rn; cbn [side_of wu_side]; repeat comm_step.
  - intros []. apply comm_relok. rn_get. unfold on_side; cbn [side_of wu_side]. repeat comm_step.
Qed.

Lemma gross_same fc fh t p g g' :
  ex (make_gross fc fh) p = Ok g -> ex (make_gross fc fh) (patch_perf t p) = Ok g' ->
  same_but_hp g g'.
Proof.
  unfold ex, make_gross, sbind, on_cc, on_cp, on_hc, on_hp, patch_perf.
  cbn [p_cc p_cp p_hc p_hp p_nc p_nh].
  destruct (apply_fan_power_correction (map nopp fc) (p_cc p)) as [a [ra|]];
    cbn [p_cc p_cp p_hc p_hp p_nc p_nh]; [|discriminate].
  destruct (apply_fan_power_correction fc (p_cp p)) as [b [rb|]];
    cbn [p_cc p_cp p_hc p_hp p_nc p_nh]; [|discriminate].
  destruct (apply_fan_power_correction fh (p_hc p)) as [c [rc|]];
    cbn [p_cc p_cp p_hc p_hp p_nc p_nh]; [|discriminate].
  destruct (apply_fan_power_correction fh (p_hp p)) as [d [rd|]]; [|discriminate].
  destruct (apply_fan_power_correction fh t) as [d' [rd'|]]; [|discriminate].
  intros H H'. injection H as <-. injection H' as <-. exists d'. reflexivity.
Qed.

Lemma same_put_gross p p' : same_but_hp p p' ->
  relok (put_rn (wr_gross (Some p))) (put_rn (wr_gross (Some p'))).
Proof.
  intros [t ->] x u u1 a u1' a' E E'. unfold put_rn, smod in E, E'. inversion E; inversion E'.
  split; [reflexivity|].
  exists (mkX (x_hspf x) (x_hcop x) (x_net_cop x) (x_net_power x) (x_gross_power x)
            (x_gross_cop x) (x_cd x) (x_net x) t).
  reflexivity.
Qed.

Lemma relok_lift_bind {A B} (r r' : res A) (k k' : A -> st U B) :
  (forall a a', r = Ok a -> r' = Ok a' -> relok (k a) (k' a')) ->
  relok (sbind (slift r) k) (sbind (slift r') k').
Proof.
  intros H x u u1 a u1' a' E E'. unfold sbind, slift in E, E'.
  destruct r as [b|]; [|discriminate]. destruct r' as [b'|]; [|discriminate].
  exact (H b b' eq_refl eq_refl x u u1 a u1' a' E E').
Qed.

Lemma comm_cops_cooling net gross i : comm (put_table_cops Cooling net gross i).
Proof. unfold put_table_cops. cputs. repeat comm_step. Qed.
Lemma mute_cops_heating net gross i : mute (put_table_cops Heating net gross i).
Proof. unfold put_table_cops. repeat mute_step. Qed.

Lemma relok_setup : relok setup_gross_table setup_gross_table.
Proof.
  unfold setup_gross_table. apply relok_get. intros x u.
  cbn [u_rn patch rn_net patch_rn].
  destruct (rn_net (u_rn u)) as [net|] eqn:N; cbn [option_map]; [|apply comm_relok, comm_ret].
  change (table_fan_powers Cooling (p_nc (patch_perf (x_net x) net)) (patch x u))
    with (table_fan_powers Cooling (p_nc net) u).
  change (table_fan_powers Heating (p_nh (patch_perf (x_net x) net)) (patch x u))
    with (table_fan_powers Heating (p_nh net) u).
  apply relok_comm_bind; [apply comm_lift|]. intros fc.
  apply relok_comm_bind; [apply comm_lift|]. intros fh.
  apply relok_lift_bind. intros g g' G G'.
  destruct (gross_same _ _ _ _ _ _ G G') as [t ->]. 
  apply relok_bind; [apply same_put_gross; eexists; reflexivity|]. intros [].
  cbn [rn_map].
  apply relok_comm_bind; [apply comm_lift|]. intros m.
  apply relok_bind.
  - apply (comm_relok (sfold (put_table_cops Cooling net g) (enumerate m))).
    apply comm_fold. intros i. apply comm_cops_cooling.
  - intros []. apply mute_relok; apply mute_fold; intros i; apply mute_cops_heating.
Qed.

Lemma comm_lower sol m : comm (lower_speed sol m).
Proof.
  unfold lower_speed. destruct m; cputs;
    repeat first [comm_step | apply comm_last | apply comm_put_rated | apply comm_add_design].
Qed.
Lemma comm_set_lower sol : comm (set_lower_speed_net_capacities sol).
Proof.
  unfold set_lower_speed_net_capacities. repeat first [comm_step | apply comm_lower].
Qed.

Lemma relok_set_capacities sol qc qh f :
  relok (resnet_set_net_capacities_and_fan sol qc qh f)
    (resnet_set_net_capacities_and_fan sol qc qh f).
Proof.
  unfold resnet_set_net_capacities_and_fan.
  apply relok_comm_bind; [apply comm_adopt|]. intros [].
  apply relok_bind.
  - destruct qh as [[h|lh]|]; [apply relok_capacities| |apply relok_capacities].
    apply comm_relok. unfold on_side; cbn [side_of wu_side]. repeat comm_step.
  - intros []. apply relok_comm_bind; [apply comm_set_fan|]. intros [].
    apply relok_bind; [apply relok_setup|]. intros []. apply comm_relok, comm_set_lower.
Qed.

(** * Cooling results and capacities *)
Section Cool.
  Variable psy : psychro R.
  Variable sol : solvers R.
  Notation M := (RESNETDXModel psy sol).

  Ltac look := intros; reflexivity.
  (** Heating efficiency does not enter the value. *)
  Notation resp f := (forall x u a, f (patch x u) a = f u a).

  Lemma p_make_condition m x u s i o :
    make_condition psy m (patch x u) s i o = make_condition psy m u s i o.
  Proof. destruct m; look. Qed.
  Lemma p_value m look fn :
    (forall t p s T, look (patch_perf t p) s T = look p s T) ->
    resp fn -> resp (resnet_value psy m look fn).
  Proof.
    intros L H x u c. unfold resnet_value, correction_factor.
    cbn [u_rn patch rn_net rn_gross patch_rn].
    destruct (rn_net (u_rn u)); [|apply H]. cbn [option_map].
    destruct (rn_gross (u_rn u)); cbn [option_map need rbind]; [|reflexivity].
    change (table_speed (patch x u) (c_speed c)) with (table_speed u (c_speed c)).
    destruct (table_speed u (c_speed c)); cbn [rbind]; [|reflexivity].
    rewrite L.
    destruct (look _ _ _); cbn [rbind]; [|reflexivity].
    destruct (PsychState _ _ _ _); cbn [rbind]; [|reflexivity].
    rewrite p_make_condition. destruct (make_condition _ _ _ _ _ _); cbn [rbind]; [|reflexivity].
    rewrite !H. reflexivity.
  Qed.
  Lemma p_gtc : resp (md_gtc M).
  Proof. apply p_value; look. Qed.
  Lemma p_gcp : resp (md_gcp M).
  Proof. apply p_value; look. Qed.
  Lemma p_ghc : resp (md_ghc M).
  Proof. apply p_value; look. Qed.
  Lemma p_grading m b fn : resp fn -> resp (resnet_grading_model psy m b fn).
  Proof.
    intros H x u c. unfold resnet_grading_model. cbv zeta. cbn [u_charge patch].
    destruct (neqb (u_charge u) _); [reflexivity|]. rewrite p_make_condition.
    destruct (make_condition _ _ _ _ _ _) as [rc|]; cbn [rbind]; [|reflexivity].
    rewrite H. destruct (fn u rc) as [v|]; cbn [rbind]; [|reflexivity].
    destruct (pydiv _ _) as [cf|]; cbn [rbind]; [|reflexivity].
    destruct (ex (set_mass_airflow_ratio psy cf) rc) as [c1|]; cbn [rbind]; [|reflexivity].
    rewrite H. destruct (let! v0 := fn u c1 in pydiv v0 v) as [f1|]; cbn [rbind]; [|reflexivity].
    destruct (need AttributeError (c_mass_airflow_ratio c)) as [r|]; cbn [rbind]; [|reflexivity].
    destruct (ex (set_mass_airflow_ratio psy (nmul r cf)) rc) as [c2|]; cbn [rbind]; [|reflexivity].
    rewrite H. destruct (let! v0 := fn u c2 in pydiv v0 v) as [f2|]; cbn [rbind]; [|reflexivity].
    destruct (ex (set_mass_airflow_ratio psy r) rc) as [c3|]; cbn [rbind]; [|reflexivity].
    rewrite H. reflexivity.
  Qed.
  Lemma p_checked f g : resp f -> resp g -> resp (checked_product f g).
  Proof. intros F G x u c. unfold checked_product. rewrite F, G. reflexivity. Qed.
  Lemma p_product f g : resp f -> resp g -> resp (product f g).
  Proof. intros F G x u c. unfold product. rewrite F, G. reflexivity. Qed.
  Lemma p_both op f g : resp f -> resp g -> resp (both op f g).
  Proof. intros F G x u c. unfold both. rewrite F, G. reflexivity. Qed.
  Lemma p_total : resp (checked_product (resnet_gross_total_cooling_capacity psy) (resnet_f_gtc psy)).
  Proof. exact (p_checked _ _ p_gtc (p_grading Cooling true _ p_gtc)). Qed.
  Lemma p_steady : resp (product (resnet_gross_heating_capacity psy) (resnet_f_ghc psy)).
  Proof. exact (p_product _ _ p_ghc (p_grading Heating true _ p_ghc)). Qed.
  Lemma p_gsc : resp (md_gsc M).
  Proof.
    intros x u c. cbn [md_gsc RESNETDXModel].
    unfold resnet_gross_sensible_cooling_capacity, nrel_gross_sensible_cooling_capacity.
    rewrite p_total. reflexivity.
  Qed.

  Lemma p_cfan : resp (cooling_fan_power sol). Proof. look. Qed.
  Lemma p_hfan : resp (heating_fan_power sol). Proof. look. Qed.
  Ltac top H :=
    let x := fresh "x" in let u := fresh "u" in let oc := fresh "oc" in
    intros x u oc;
    unfold gross_total_cooling_capacity, gross_cooling_power, gross_sensible_cooling_capacity,
      gross_steady_state_heating_capacity, gross_integrated_heating_capacity;
    change (cooling_conditions (patch x u) oc) with (cooling_conditions u oc);
    change (heating_conditions (patch x u) oc) with (heating_conditions u oc);
    match goal with |- rbind ?m _ = _ => destruct m; cbn [rbind]; [|reflexivity] end;
    first [ etransitivity; [apply H|reflexivity] | rewrite H; reflexivity ].
  Lemma p_gross_total : resp (gross_total_cooling_capacity M).
  Proof. top (p_checked _ _ p_gtc (p_grading Cooling true _ p_gtc)). Qed.
  Lemma p_gross_power : resp (gross_cooling_power M).
  Proof. top (p_checked _ _ p_gcp (p_grading Cooling false _ p_gcp)). Qed.
  Lemma p_gross_sensible : resp (gross_sensible_cooling_capacity M).
  Proof. top p_gsc. Qed.
  Lemma p_gross_heating : resp (gross_steady_state_heating_capacity M).
  Proof. top (p_product _ _ p_ghc (p_grading Heating true _ p_ghc)). Qed.
  Lemma p_gihc : resp (md_gihc M).
  Proof.
    intros x u c. cbn [md_gihc RESNETDXModel]. unfold resnet_gross_integrated_heating_capacity.
    cbv zeta. cbn [u_defrost patch]. rewrite p_steady. reflexivity.
  Qed.
  Lemma p_gross_integrated : resp (gross_integrated_heating_capacity M).
  Proof. top p_gihc. Qed.

  Lemma p_net_total : resp (net_total_cooling_capacity sol M).
  Proof. exact (p_both _ _ _ p_gross_total p_cfan). Qed.
  Lemma p_net_sensible : resp (net_sensible_cooling_capacity sol M).
  Proof. exact (p_both _ _ _ p_gross_sensible p_cfan). Qed.
  Lemma p_net_power : resp (net_cooling_power sol M).
  Proof. exact (p_both _ _ _ p_gross_power p_cfan). Qed.
  Lemma p_net_cop : resp (net_total_cooling_cop sol M).
  Proof. exact (p_both _ _ _ p_net_total p_net_power). Qed.
  Lemma p_net_heating : resp (net_steady_state_heating_capacity sol M).
  Proof. exact (p_both _ _ _ p_gross_heating p_hfan). Qed.
  Lemma p_net_integrated : resp (net_integrated_heating_capacity sol M).
  Proof. exact (p_both _ _ _ p_gross_integrated p_hfan). Qed.
  Lemma p_eer : resp (eer sol M).
  Proof. intros x u oc. unfold eer. rewrite p_net_cop. reflexivity. Qed.
  Lemma p_point get x u : cooling_point sol M get (patch x u) = cooling_point sol M get u.
  Proof.
    unfold cooling_point, test_point. change (rating get (patch x u)) with (rating get u).
    destruct (rating get u); cbn [rbind]; [|reflexivity]. rewrite p_net_total, p_net_power. reflexivity.
  Qed.
  Lemma p_seer x u : seer sol M (patch x u) = seer sol M u.
  Proof.
    unfold seer. cbv zeta. rewrite !p_point.
    change (rating rc_B_full (patch x u)) with (rating rc_B_full u).
    cbn [u_staging u_c u_cycling patch].
    destruct (u_staging u); try reflexivity.
    destruct (rating rc_B_full u); cbn [rbind]; [|reflexivity]. rewrite p_net_cop. reflexivity.
  Qed.

  (** * The constructor *)
  Lemma comm_put_cond set m s o : comm (put_cond psy set m s o).
  Proof.
    unfold put_cond. apply comm_get.
    - intros x u. destruct m; reflexivity.
    - intros u. repeat comm_step.
  Qed.
  Lemma comm_conditions : comm (set_rating_conditions psy).
  Proof.
    unfold set_rating_conditions. apply comm_bind; [apply comm_reset_esp|]. intros _.
    apply comm_get; [look|]. intros u. cbv zeta.
    repeat first [apply comm_put_cond | comm_step].
  Qed.
  Lemma comm_bypass c : comm (calculate_rated_bypass_factor psy sol M c).
  Proof.
    unfold calculate_rated_bypass_factor. apply comm_get.
    - intros x u. cbv zeta. cbn [u_shr u_bf u_ntu patch].
      unfold gross_cooling_outlet_state. cbn [cooling_conditions rbind].
      rewrite p_gross_total. reflexivity.
    - intros u. repeat comm_step.
  Qed.
  Lemma comm_sensible : comm (set_sensible_cooling_variables psy sol M).
  Proof.
    unfold set_sensible_cooling_variables, set_sensible_at.
    repeat first [apply comm_bypass | comm_step].
  Qed.
  Lemma comm_put_gross m i : comm (put_gross_capacity m i).
  Proof. unfold put_gross_capacity. destruct m; cputs; repeat comm_step. Qed.

  Lemma mute_guard e b : mute (slift (guard e b)).
  Proof. apply mute_lift. Qed.
  Lemma comm_unless_cooling v : comm (unless_table (nrel_set_net_cop Cooling v)).
  Proof.
    unfold unless_table. rn_get. destruct (rn_net (u_rn u)); [apply comm_ret|].
    unfold nrel_set_net_cop, derive_from_net_cop, set_comp, set_entry. destruct v; cputs; repeat comm_step.
  Qed.
  Lemma comm_unless_cooling_gross v : comm (unless_table (nrel_set_gross_cop Cooling v)).
  Proof.
    unfold unless_table. rn_get. destruct (rn_net (u_rn u)); [apply comm_ret|].
    unfold nrel_set_gross_cop, derive_from_gross_cop, set_comp, set_entry. destruct v; cputs; repeat comm_step.
  Qed.
End Cool.
