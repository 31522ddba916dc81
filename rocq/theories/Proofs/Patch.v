(** Two units that differ in heating efficiency only: what the constructor of a RESNET unit
    does to one, it does to the other. *)
From Coq Require Import Reals List Bool String.
From Verif.Base Require Import Num Res Tac.
From Verif.Model Require Import Units Util Psychrometrics Conditions Defrost Fan Curves
  Tabular Unit NREL BaseModel Title24 Resnet DXUnit.
Import ListNotations.
Local Open Scope R_scope.

Notation U := (dxunit R).

(** Other values for everything that concerns heating power. *)
Record heat_eff := mkX {
  x_hspf : option R; x_hcop : option (num_or_list R);
  x_net_cop : list (option R); x_net_power : list (option R);
  x_gross_power : list (option R); x_gross_cop : list (option R);
  x_cd : R; x_net : table R; x_gross : table R }.

Definition patch_perf (t : table R) (p : perf R) : perf R :=
  mkPerf (p_cc p) (p_cp p) (p_hc p) t (p_nc p) (p_nh p).
Definition patch_rn (x : heat_eff) (r : resnet_data R) : resnet_data R :=
  mkRn (option_map (patch_perf (x_net x)) (rn_net r))
    (option_map (patch_perf (x_gross x)) (rn_gross r))
    (rn_motor r) (rn_cap17 r) (rn_ratio95 r) (rn_cop82 r) (rn_map r).
Definition patch_side (x : heat_eff) (s : side R) : side R :=
  mkSide (sd_n s) (sd_full s) (sd_boost s) (sd_int s) (sd_low s) (sd_net_cap s)
    (sd_gross_cap s) (sd_fan_power s) (x_net_cop x) (x_net_power x) (x_gross_power x)
    (x_gross_cop x) (sd_airflow s) (sd_esp s) (sd_fan_speed s) (sd_rated_fan_speed s)
    (sd_flow_per_cap s) (sd_fan_efficacy s) (x_cd x).
Definition patch (x : heat_eff) (u : U) : U :=
  mkUnit (u_kwargs u) (u_seer u) (u_eer u) (x_hspf x) (x_hcop x) (u_cycling u)
    (u_ducted u) (u_cooling_off u) (u_defrost u) (u_crank_setpoint u)
    (u_standard u) (u_charge u) (u_staging u) (u_heating_off u)
    (u_heating_on u) (u_c u) (patch_side x (u_h u)) (u_shr u) (u_bf u) (u_ntu u)
    (u_full_esp u) (u_fan u) (u_crank u) (u_conds u) (patch_rn x (u_rn u)).

(** [m] does the same on both. *)
Definition comm {A} (m : st U A) : Prop :=
  forall x u, exists x', m (patch x u) = (patch x' (fst (m u)), snd (m u)).

Lemma comm_ret {A} (a : A) : comm (sret a).
Proof. intros x u. exists x. reflexivity. Qed.
Lemma comm_lift {A} (r : res A) : comm (slift r).
Proof. intros x u. exists x. reflexivity. Qed.
Lemma comm_read {A} (g : U -> res A) : (forall x u, g (patch x u) = g u) -> comm (sread g).
Proof. intros H x u. exists x. unfold sread. rewrite H. reflexivity. Qed.
Lemma comm_bind {A B} (m : st U A) (k : A -> st U B) :
  comm m -> (forall a, comm (k a)) -> comm (sbind m k).
Proof.
  intros H1 H2 x u. destruct (H1 x u) as [x1 E]. unfold sbind. rewrite E.
  destruct (m u) as [u1 [a|e]]; cbn [fst snd].
  - apply H2.
  - exists x1. reflexivity.
Qed.
Lemma comm_get {B} (k : U -> st U B) :
  (forall x u, k (patch x u) = k u) -> (forall u, comm (k u)) -> comm (sbind sget k).
Proof.
  intros H1 H2 x u. unfold sbind, sget. rewrite H1. apply H2.
Qed.
Lemma comm_mod (f : U -> U) : (forall x u, exists x', f (patch x u) = patch x' (f u)) -> comm (smod f).
Proof. intros H x u. destruct (H x u) as [x' E]. exists x'. unfold smod. rewrite E. reflexivity. Qed.
Lemma comm_fold {A} (f : A -> st U unit) l : (forall a, comm (f a)) -> comm (sfold f l).
Proof.
  intros H. induction l as [|a l IH]; simpl; [apply comm_ret|]. apply comm_bind; auto.
Qed.
Lemma comm_on_fan {A} (m : st (fan R) A) : comm (on_fan m).
Proof.
  intros x u. exists x. unfold on_fan. cbn [u_fan patch]. destruct (u_fan u) as [f|]; [|reflexivity].
  destruct (m f). reflexivity.
Qed.

Ltac comm_step :=
  cbv zeta beta;
  lazymatch goal with
  | |- comm (sret _) => apply comm_ret
  | |- comm (slift _) => apply comm_lift
  | |- comm (on_fan _) => apply comm_on_fan
  | |- comm (sread _) => apply comm_read; intros; reflexivity
  | |- comm (sbind sget _) => apply comm_get; [intros ? ?; reflexivity | intros ?]
  | |- comm (sbind _ _) => apply comm_bind; [|intros ?]
  | |- comm (sfold _ _) => apply comm_fold; intros ?
  | |- comm (smod _) => apply comm_mod; let x := fresh in intros x ?; exists x; reflexivity
  | |- comm (match ?x with _ => _ end) => destruct x
  end.

Lemma comm_last : comm last_fan_speed.
Proof. unfold last_fan_speed. comm_step. Qed.
Lemma comm_put_fan m i k : comm (put_fan_speed m i k).
Proof. destruct m; unfold put_fan_speed, on_side; cbn [side_of wu_side]; repeat comm_step. Qed.
Lemma comm_put_rated m i k : comm (put_rated_fan_speed m i k).
Proof. destruct m; unfold put_rated_fan_speed, on_side; cbn [side_of wu_side]; repeat comm_step. Qed.

Ltac cputs := unfold side_put, on_side; cbn [side_of wu_side].

Lemma comm_add_design m i : comm (add_design_speed m i).
Proof.
  unfold add_design_speed. destruct m; cbn [side_of];
    repeat first [comm_step | apply comm_last | apply comm_put_fan].
Qed.
Lemma comm_add_rated sol m i full : comm (add_rated_speed sol m i full).
Proof.
  unfold add_rated_speed. destruct m; cputs;
    repeat first [comm_step | apply comm_last | apply comm_put_rated].
Qed.
Lemma comm_other sol m k iq : comm (other_speed sol m k iq).
Proof.
  unfold other_speed. cbv zeta. destruct (Nat.eqb _ _); [apply comm_ret|].
  destruct m; cputs; repeat first [comm_step | apply comm_add_design | apply comm_add_rated].
Qed.
Lemma comm_given sol m f i : comm (given_fan_speed sol m f i).
Proof. unfold given_fan_speed. destruct m; cputs; repeat comm_step. Qed.
Lemma comm_reset_esp : comm reset_full_esp.
Proof. unfold reset_full_esp. repeat comm_step. Qed.

Lemma comm_set_fan sol f : comm (resnet_set_fan sol f).
Proof.
  unfold resnet_set_fan. destruct f as [f|].
  - repeat first [comm_step | unfold on_side; cbn [side_of wu_side]; comm_step | apply comm_given].
  - repeat first
      [ lazymatch goal with |- comm (match ?m with MotorPSC => _ | _ => _ end) => destruct m end
      | apply comm_last | apply comm_put_fan | apply comm_add_design | apply comm_add_rated
      | apply comm_other
      | comm_step | unfold on_side, side_put; cbn [side_of wu_side]; comm_step ].
Qed.

(** * Steps that look at heating efficiency *)
(** Both succeed: the same result, and still only heating efficiency differs. *)
Definition relok {A} (m m' : st U A) : Prop :=
  forall x u u1 a u1' a', m u = (u1, Ok a) -> m' (patch x u) = (u1', Ok a') ->
    a' = a /\ exists x', u1' = patch x' u1.

Lemma comm_relok {A} (m : st U A) : comm m -> relok m m.
Proof.
  intros H x u u1 a u1' a' E E'. destruct (H x u) as [x' Ex]. rewrite E' in Ex. rewrite E in Ex.
  cbn [fst snd] in Ex. inversion Ex. split; [congruence|]. exists x'. reflexivity.
Qed.
Lemma relok_bind {A B} (m m' : st U A) (k k' : A -> st U B) :
  relok m m' -> (forall a, relok (k a) (k' a)) -> relok (sbind m k) (sbind m' k').
Proof.
  intros H1 H2 x u u1 a u1' a' E E'. unfold sbind in E, E'.
  destruct (m u) as [v [b|e]] eqn:M; [|discriminate].
  destruct (m' (patch x u)) as [v' [b'|e']] eqn:M'; [|discriminate].
  destruct (H1 x u v b v' b' M M') as [-> [x1 ->]]. exact (H2 b x1 v u1 a u1' a' E E').
Qed.
Lemma relok_comm_bind {A B} (m : st U A) (k k' : A -> st U B) :
  comm m -> (forall a, relok (k a) (k' a)) -> relok (sbind m k) (sbind m k').
Proof. intros H1 H2. apply relok_bind; [apply comm_relok|]; assumption. Qed.

Lemma patch_patch y x u : patch y (patch x u) = patch y u.
Proof.
  unfold patch. cbn. f_equal. unfold patch_rn. cbn.
  destruct (rn_net (u_rn u)), (rn_gross (u_rn u)); reflexivity.
Qed.

Definition hp_of (o : option (perf R)) : table R :=
  match o with Some p => p_hp p | None => mkTable BaseTable [] 0 [] None end.
Definition self (u : U) : heat_eff :=
  mkX (u_hspf u) (u_hcop u) (sd_net_cop (u_h u)) (sd_net_power (u_h u))
    (sd_gross_power (u_h u)) (sd_gross_cop (u_h u)) (sd_cd (u_h u))
    (hp_of (rn_net (u_rn u))) (hp_of (rn_gross (u_rn u))).
Lemma patch_self u : patch (self u) u = u.
Proof.
  destruct u as [a1 a2 a3 a4 a5 a6 a7 a8 a9 a10 a11 a12 a13 a14 a15 a16 h a18 a19 a20 a21 a22 a23 a24 r].
  destruct h, r as [n g m c1 c2 c3 mp]. unfold patch, self, patch_side, patch_rn. cbn.
  f_equal. destruct n as [[]|], g as [[]|]; reflexivity.
Qed.

(** Changes to heating efficiency only. *)
Definition mute {A} (m : st U A) : Prop :=
  forall u u1 a, m u = (u1, Ok a) -> exists x, u1 = patch x u.
Lemma mute_ret {A} (a : A) : mute (sret a).
Proof. intros u u1 b E. inversion E; subst. exists (self u1). symmetry. apply patch_self. Qed.
Lemma mute_lift {A} (r : res A) : mute (slift r).
Proof. intros u u1 b E. inversion E; subst. exists (self u1). symmetry. apply patch_self. Qed.
Lemma mute_read {A} (g : U -> res A) : mute (sread g).
Proof. intros u u1 b E. inversion E; subst. exists (self u1). symmetry. apply patch_self. Qed.
Lemma mute_get : mute (A:=U) sget.
Proof. intros u u1 b E. inversion E; subst. exists (self b). symmetry. apply patch_self. Qed.
Lemma mute_bind {A B} (m : st U A) (k : A -> st U B) :
  mute m -> (forall a, mute (k a)) -> mute (sbind m k).
Proof.
  intros H1 H2 u u2 b E. unfold sbind in E. destruct (m u) as [v [a|e]] eqn:M; [|discriminate].
  destruct (H1 u v a M) as [x ->]. destruct (H2 a _ _ _ E) as [y ->].
  exists y. apply patch_patch.
Qed.
Lemma mute_mod (f : U -> U) : (forall u, exists x, f u = patch x u) -> mute (smod f).
Proof. intros H u u1 a E. inversion E; subst. apply H. Qed.
Lemma mute_fold {A} (f : A -> st U unit) l : (forall a, mute (f a)) -> mute (sfold f l).
Proof. intros H. induction l as [|a l IH]; simpl; [apply mute_ret|]. apply mute_bind; auto. Qed.
Lemma mute_relok (m m' : st U unit) : mute m -> mute m' -> relok m m'.
Proof.
  intros H H' x u u1 [] u1' [] E E'. split; [reflexivity|].
  destruct (H _ _ _ E) as [y ->]. destruct (H' _ _ _ E') as [y' ->]. exists y'.
  rewrite !patch_patch. reflexivity.
Qed.

Definition w_net_cop l x := mkX (x_hspf x) (x_hcop x) l (x_net_power x) (x_gross_power x)
  (x_gross_cop x) (x_cd x) (x_net x) (x_gross x).
Definition w_net_power l x := mkX (x_hspf x) (x_hcop x) (x_net_cop x) l (x_gross_power x)
  (x_gross_cop x) (x_cd x) (x_net x) (x_gross x).
Definition w_gross_power l x := mkX (x_hspf x) (x_hcop x) (x_net_cop x) (x_net_power x) l
  (x_gross_cop x) (x_cd x) (x_net x) (x_gross x).
Definition w_gross_cop l x := mkX (x_hspf x) (x_hcop x) (x_net_cop x) (x_net_power x)
  (x_gross_power x) l (x_cd x) (x_net x) (x_gross x).

(** The four setters of heating efficiency. *)
Definition mute_set (set : list (option R) -> side R -> side R) : Prop :=
  forall l u, exists x, wu_h (set l (u_h u)) u = patch x u.
Ltac mute_via w :=
  intros l u; exists (w l (self u));
  rewrite <- (patch_self u) at 1 2; generalize (self u); intros y;
  destruct y; reflexivity.
Lemma mute_net_cop : mute_set ws_net_cop. Proof. mute_via w_net_cop. Qed.
Lemma mute_net_power : mute_set ws_net_power. Proof. mute_via w_net_power. Qed.
Lemma mute_gross_power : mute_set ws_gross_power. Proof. mute_via w_gross_power. Qed.
Lemma mute_gross_cop : mute_set ws_gross_cop. Proof. mute_via w_gross_cop. Qed.

Lemma mute_on_side set l : mute_set set -> mute (on_side Heating (set l)).
Proof. intros H. apply mute_mod. intros u. apply H. Qed.
Lemma mute_side_put get set i v : mute_set set -> mute (side_put Heating get set i v).
Proof.
  intros H. unfold side_put. apply mute_bind; [apply mute_get|]. intros u.
  apply mute_bind; [apply mute_lift|]. intros l. apply mute_on_side. exact H.
Qed.
