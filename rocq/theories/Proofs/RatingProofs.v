(** Heating efficiency inputs do not affect cooling; the rating solver meets its targets. *)
From Coq Require Import Reals QArith List Bool String Lra.
From Verif.Base Require Import Num Res Tac.
From Verif.Model Require Import Units Util Psychrometrics Conditions Defrost Fan Curves
  Tabular Unit NREL BaseModel Title24 Resnet DXUnit RatingSolver.
From Verif.Spec Require Import RatingSpec.
From Verif.Proofs Require Import Patch Patch2.
Import ListNotations.
Local Open Scope R_scope.

Lemma ex_inv {S} (m : st S unit) s s' : ex m s = Ok s' -> exists b, m s = (s', Ok b).
Proof.
  unfold ex. destruct (m s) as [v [b|]]; intros E; [|discriminate].
  injection E as ->. exists b. reflexivity.
Qed.

Section Rating.
  Variable psy : psychro R.
  Variable sol : solvers R.
  Notation M := (RESNETDXModel psy sol).

  Lemma init_patch g n c h a u0 u0' :
    init_unit M a = Ok u0 -> init_unit M (with_heating_efficiency g n c h a) = Ok u0' ->
    exists x, u0' = patch x u0.
  Proof.
    unfold init_unit. cbn [with_heating_efficiency a_kwargs a_staging a_hcap a_ccap]. intros E E'.
    common E E'. injection E as <-. injection E' as <-.
    exists (mkX h n [] [] [] [] (or_else c (md_cd_heating M)) (hp_of (rn_net x)) (hp_of (rn_gross x))).
    unfold patch, patch_rn. cbn.
    destruct x as [a1 a2 a3 a4 a5 a6 a7]. cbn. f_equal. destruct a1 as [[]|], a2 as [[]|]; reflexivity.
  Qed.

  Lemma mute_opt_net v : mute (opt_set (md_set_net_cop M Heating) v).
  Proof. destruct v; [apply mute_unless, mute_nrel_net|apply mute_ret]. Qed.
  Lemma mute_opt_gross v : mute (opt_set (md_set_gross_cop M Heating) v).
  Proof. destruct v; [apply mute_unless, mute_nrel_gross|apply mute_ret]. Qed.
  Lemma relok_guard e b b' : relok (slift (guard e b)) (slift (guard e b')).
  Proof. apply mute_relok; apply mute_lift. Qed.

  Lemma relok_finish g n c h a :
    relok (finish_unit psy sol M a) (finish_unit psy sol M (with_heating_efficiency g n c h a)).
  Proof.
    unfold finish_unit. cbn [with_heating_efficiency a_kwargs a_staging a_hcap a_ccap a_fan a_crank
      a_net_ccop a_gross_ccop a_net_hcop a_gross_hcop].
    apply relok_comm_bind; [apply comm_placeholders|intros _].
    apply relok_bind; [apply relok_set_capacities|intros _].
    apply relok_comm_bind; [apply comm_reset_esp|intros _].
    intros x u u1 b u1' b' E E'. unfold sbind at 1, sget at 1 in E. unfold sbind at 1, sget at 1 in E'.
    cbn [u_c u_h patch sd_n patch_side] in E'.
    revert b b' u1 u1' E E'.
    lazymatch goal with |- forall b b' u1 u1', ?m u = _ -> ?m' _ = _ -> _ =>
      enough (R : relok m m') by (intros b b' u1 u1' E E'; exact (R x u u1 b u1' b' E E')) end.
    apply relok_comm_bind; [apply comm_fold; intros ?; apply comm_put_gross|intros _].
    apply relok_comm_bind; [apply comm_fold; intros ?; apply comm_put_gross|intros _].
    apply relok_comm_bind; [destruct (a_crank a); comm_step|intros k].
    apply relok_comm_bind; [comm_step|intros _].
    apply relok_comm_bind; [apply comm_conditions|intros _].
    apply relok_comm_bind; [apply comm_sensible|intros _].
    apply relok_comm_bind; [apply comm_lift|intros _].
    apply relok_bind; [apply relok_guard|intros _].
    apply relok_comm_bind; [destruct (a_net_ccop a); [apply comm_unless_cooling|apply comm_ret]|intros _].
    apply relok_comm_bind; [destruct (a_gross_ccop a); [apply comm_unless_cooling_gross|apply comm_ret]|intros _].
    apply relok_bind; [apply mute_relok; apply mute_opt_net|intros _].
    apply relok_bind; [apply mute_relok; apply mute_opt_gross|intros _].
    apply mute_relok; repeat mute_step.
  Qed.

  Lemma DXUnit_inv a u : DXUnit psy sol M a = Ok u ->
    exists u0 b, init_unit M a = Ok u0 /\ finish_unit psy sol M a u0 = (u, Ok b).
  Proof.
    intros E. apply rbind_ok in E. destruct E as (u0 & I & E). exists u0.
    apply ex_inv in E. destruct E as [b E]. exists b. split; assumption.
  Qed.
  Lemma construct_patch g n c h a u u' :
    DXUnit psy sol M a = Ok u -> DXUnit psy sol M (with_heating_efficiency g n c h a) = Ok u' ->
    exists x, u' = patch x u.
  Proof.
    intros E E'. apply DXUnit_inv in E, E'.
    destruct E as (u0 & b & I & F). destruct E' as (u0' & b' & I' & F').
    destruct (init_patch _ _ _ _ _ _ _ I I') as [x ->].
    exact (proj2 (relok_finish g n c h a x u0 u b u' b' F F')).
  Qed.

  Lemma heating_efficiency_cooling g n c h a u u' :
    DXUnit psy sol M a = Ok u -> DXUnit psy sol M (with_heating_efficiency g n c h a) = Ok u' ->
    same_cooling sol M u u' /\ same_heating_capacity sol M u u'.
  Proof.
    intros E E'. destruct (construct_patch _ _ _ _ _ _ _ E E') as [x ->].
    split; [split; [apply p_seer|intros oc; repeat split]|intros oc; split].
    - apply p_eer. - apply p_net_total. - apply p_net_sensible. - apply p_net_power.
    - apply p_net_heating. - apply p_net_integrated.
  Qed.

  (** * The rating solver *)
  Lemma rating_unit_eq r c p :
    rating_unit psy sol r c p = DXUnit psy sol M (rating_args r c p).
  Proof. unfold rating_unit, RatingSolver.M. reflexivity. Qed.
  Lemma rating_unit_hcop r c p : exists g n cd h,
    rating_args r c (Some p) = with_heating_efficiency g n cd h (rating_args r c None).
  Proof. do 4 eexists. reflexivity. Qed.

  Lemma hspf_error_inv r c p e : hspf_error psy sol r c p = Ok e -> exists u v,
    rating_unit psy sol r c (Some p) = Ok u /\
    hspf sol (RatingSolver.M psy sol) u 4 = Ok v /\ nsub v (ri_hspf r) = e.
  Proof.
    unfold hspf_error. intros P. apply rbind_ok in P. destruct P as (u & E & P).
    apply rbind_ok in P. destruct P as (v & H & P). exists u, v.
    split; [exact E|]. split; [exact H|]. apply Ok_inj in P. exact P.
  Qed.
  Lemma hspf_error_zero r c p u e : hspf_error psy sol r c p = Ok e ->
    rating_unit psy sol r c (Some p) = Ok u -> exists v, hspf sol M u 4 = Ok v /\ v - ri_hspf r = e.
  Proof.
    intros P E. destruct (hspf_error_inv _ _ _ _ P) as (u' & v & E' & H & Z). clear P.
    assert (u' = u) by congruence. subst u'. exists v. split; [exact H|exact Z].
  Qed.
  Lemma seer_error_inv r c e : seer_error psy sol r c = Ok e -> exists u v,
    rating_unit psy sol r c None = Ok u /\
    seer sol (RatingSolver.M psy sol) u = Ok v /\ nsub v (ri_seer r) = e.
  Proof.
    unfold seer_error. intros P. apply rbind_ok in P. destruct P as (u & E & P).
    apply rbind_ok in P. destruct P as (v & H & P). exists u, v.
    split; [exact E|]. split; [exact H|]. apply Ok_inj in P. exact P.
  Qed.
  Lemma rating_inv r u : make_rating_unit psy sol r = Ok u -> exists c p,
    (ri_staging r = SINGLE_STAGE \/
     run_prober_pure (seer_error psy sol r) (newton sol (ndiv (ri_seer r) (lit 3%Q))) = Ok c) /\
    run_prober_pure (hspf_error psy sol r c) (newton sol (ndiv (ri_hspf r) (lit 2%Q))) = Ok p /\
    rating_unit psy sol r c (Some p) = Ok u.
  Proof.
    unfold make_rating_unit. intros E. apply rbind_ok in E. destruct E as (c & C & E). exists c.
    apply rbind_ok in E. destruct E as (p & P & E). exists p. split; [|split; assumption].
    destruct (ri_staging r); [left; reflexivity| |]; right; exact C.
  Qed.

  Lemma rating_meets_hspf tol r u : newton_finds_roots tol sol -> make_rating_unit psy sol r = Ok u ->
    exists v, hspf sol M u 4 = Ok v /\ Rabs (v - ri_hspf r) <= tol.
  Proof.
    intros N E. apply rating_inv in E. destruct E as (c & p & _ & P & E).
    destruct (N _ _ _ P) as (e & P' & B).
    destruct (hspf_error_zero r c p u e P' E) as (v & H & Z). exists v. split; [exact H|].
    rewrite Z. exact B.
  Qed.

  Lemma rating_meets_seer tol r u : newton_finds_roots tol sol -> ri_staging r <> SINGLE_STAGE ->
    make_rating_unit psy sol r = Ok u ->
    exists v, seer sol M u = Ok v /\ Rabs (v - ri_seer r) <= tol.
  Proof.
    intros N S1 E. apply rating_inv in E. destruct E as (c & p & [S2|C] & P & E); [contradiction|].
    destruct (N _ _ _ C) as (e & C' & B).
    destruct (seer_error_inv r c e C') as (u0 & v & E0 & S0 & Z).
    destruct (rating_unit_hcop r c p) as (g & n & cd & h & K).
    rewrite rating_unit_eq in E, E0. rewrite K in E.
    destruct (heating_efficiency_cooling _ _ _ _ _ _ _ E0 E) as [[Q _] _].
    exists v. split; [rewrite Q; exact S0|]. cbn [nsub RNum] in Z. rewrite Z. exact B.
  Qed.
End Rating.
