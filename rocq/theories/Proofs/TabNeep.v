(** [make_neep_model_data] and the caller's lists (C27). *)
From Coq Require Import Reals QArith Lra Lia List Bool Sorted ZArith.
From Verif.Base Require Import Num Res Tac.
From Verif.Model Require Import Units Util Curves Tabular.
From Verif.Spec Require Import TabularSpec.
From Verif.Proofs Require Import UnitsR TabCells TabAdd TabInterp.
Import ListNotations.
Local Open Scope R_scope.

Lemma sbind_inv {S A B} (m : st S A) (k : A -> st S B) s s' b :
  sbind m k s = (s', Ok b) -> exists s1 a, m s = (s1, Ok a) /\ k a s1 = (s', Ok b).
Proof. unfold sbind. destruct (m s) as [s1 [a|e]]; intros H; [eauto|inversion H]. Qed.

(** Rows and temperatures added by a method. *)
Definition adds (k : nat) (t t' : table R) : Prop :=
  length (t_data t') = (length (t_data t) + k)%nat
  /\ length (t_temps t') = (length (t_temps t) + k)%nat.

Lemma adds_0 t : adds 0 t t. Proof. split; lia. Qed.

Lemma put_opt_adds ti si o (t t' : table R) u : put_opt ti si o t = (t', Ok u) -> adds 0 t t'.
Proof.
  intros H. destruct u. apply put_opt_ok in H. destruct H as (d' & Hd & ->). split.
  - cbn [t_data w_data]. rewrite (put_length _ _ _ _ _ Hd). lia.
  - cbn [t_temps w_data]. lia.
Qed.

Lemma setter_adds s x m (t t' : table R) u : setter s x m -> m t = (t', Ok u) -> adds 0 t t'.
Proof.
  intros S H. destruct (setter_shape s x m t t' _ S H) as [(e & Q & _)|(_ & ti & v & d' & _ & Hd & ->)];
    [discriminate|]. split.
  - cbn [t_data w_data]. rewrite (put_length _ _ _ _ _ Hd). lia.
  - cbn [t_temps w_data]. lia.
Qed.

Lemma sfold_adds {A} (f : A -> st (table R) unit) l : (forall a t t' u, f a t = (t', Ok u) -> adds 0 t t') ->
  forall t t' u, sfold f l t = (t', Ok u) -> adds 0 t t'.
Proof.
  intros Hf. induction l as [|a l IH]; intros t t' u H.
  - inversion H. apply adds_0.
  - cbn [sfold] in H. apply sbind_inv in H. destruct H as (s1 & b & H1 & H2).
    apply Hf in H1. apply IH in H2. destruct H1, H2. split; lia.
Qed.

Lemma fill_row_adds ti v (t t' : table R) u : fill_row ti v t = (t', Ok u) -> adds 0 t t'.
Proof.
  intros H. unfold fill_row in H. apply sbind_inv in H. destruct H as (s1 & b & H1 & H2).
  inversion H1; subst. eapply sfold_adds; [|exact H2].
  intros a t1 t2 u1 H. apply sbind_inv in H. destruct H as (s2 & o & Hs & H).
  unfold sread in Hs. inversion Hs; subst. eapply put_opt_adds; eauto.
Qed.

Lemma add_adds x e l (t t' : table R) u : add_temperature x e l t = (t', Ok u) -> adds 1 t t'.
Proof.
  intros H. unfold add_temperature in H. apply sbind_inv in H. destruct H as (s1 & b & H1 & H).
  inversion H1; subst; clear H1.
  destruct (existsb _ _); [inversion H|].
  apply sbind_inv in H. destruct H as (s2 & b2 & H1 & H). unfold smod in H1. inversion H1; subst; clear H1.
  apply sbind_inv in H. destruct H as (s3 & b3 & H1 & H). unfold sget in H1. inversion H1; subst; clear H1.
  apply sbind_inv in H. destruct H as (s4 & i & H1 & H). unfold slift in H1. inversion H1; subst; clear H1.
  apply sbind_inv in H. destruct H as (s5 & b5 & H1 & H). unfold smod in H1. inversion H1; subst; clear H1.
  apply sbind_inv in H. destruct H as (s6 & b6 & H1 & H). unfold sget in H1. inversion H1; subst; clear H1.
  set (t1 := w_data _ _) in H.
  assert (A : adds 1 b t1).
  { unfold t1. split.
    - cbn [t_data w_data w_temps]. rewrite ins_length. lia.
    - cbn [t_temps w_data w_temps]. unfold insort. rewrite ins_length. lia. }
  assert (B : adds 0 t1 t').
  { destruct (Nat.eqb i 0); [|destruct (Nat.eqb i _)];
      repeat (lazymatch type of H with sbind _ _ _ = _ => idtac end; apply sbind_inv in H; destruct H as (? & ? & ?Hs & H);
              unfold slift in Hs; inversion Hs; subst; clear Hs);
      eapply fill_row_adds; eauto. }
  destruct A, B. split; lia.
Qed.

Lemma interp_adds (t t' : table R) u : set_interpolator t = (t', Ok u) ->
  adds 0 t t' /\ length (t_data t') = length (t_temps t').
Proof.
  destruct u. intros H. destruct (interpolated_inv t t' H) as (vals & (G1 & _ & G3 & _) & ->).
  split; [split; cbn [t_data t_temps w_interp]; lia|].
  cbn [t_data t_temps w_interp]. rewrite G1, map_length. auto.
Qed.

(** Steps on the four tables, seen from the cooling capacity table. *)
Lemma onq_c_inv m (x x' : neep_tables (T:=R)) u : onq_c m x = (x', Ok u) -> m (nt_cc x) = (nt_cc x', Ok u).
Proof. unfold onq_c. destruct (m (nt_cc x)) as [t r]. intros H. inversion H; subst. reflexivity. Qed.
Lemma onp_c_inv m (x x' : neep_tables (T:=R)) r : onp_c m x = (x', r) -> nt_cc x' = nt_cc x.
Proof. unfold onp_c. destruct (m (nt_cp x)). intros H. inversion H; subst. reflexivity. Qed.
Lemma onq_h_inv m (x x' : neep_tables (T:=R)) r : onq_h m x = (x', r) -> nt_cc x' = nt_cc x.
Proof. unfold onq_h. destruct (m (nt_hc x)). intros H. inversion H; subst. reflexivity. Qed.
Lemma onp_h_inv m (x x' : neep_tables (T:=R)) r : onp_h m x = (x', r) -> nt_cc x' = nt_cc x.
Proof. unfold onp_h. destruct (m (nt_hp x)). intros H. inversion H; subst. reflexivity. Qed.

Lemma neep_body_rows lct tmax tmin (x x' : neep_tables (T:=R)) p :
  neep_body lct tmax tmin x = (x', Ok p) ->
  adds 2 (nt_cc x) (nt_cc x') /\ length (t_data (nt_cc x')) = length (t_temps (nt_cc x')).
Proof.
  unfold neep_body. cbv zeta. intros H.
  apply sbind_inv in H. destruct H as (x1 & a1 & E1 & H). apply onq_c_inv in E1.
  apply (setter_adds _ _ _ _ _ _ (set_interp _ _)) in E1.
  apply sbind_inv in H. destruct H as (x2 & a2 & E2 & H). apply onp_c_inv in E2.
  apply sbind_inv in H. destruct H as (x3 & a3 & E3 & H). apply onq_c_inv, add_adds in E3.
  apply sbind_inv in H. destruct H as (x4 & a4 & E4 & H). apply onp_c_inv in E4.
  apply sbind_inv in H. destruct H as (x5 & a5 & E5 & H). apply onq_c_inv, add_adds in E5.
  apply sbind_inv in H. destruct H as (x6 & a6 & E6 & H). apply onp_c_inv in E6.
  apply sbind_inv in H. destruct H as (x7 & a7 & E7 & H). unfold sread in E7.
  assert (Q7 : nt_cc x7 = nt_cc x6) by (inversion E7; auto). clear E7.
  apply sbind_inv in H. destruct H as (x8 & a8 & E8 & H).
  assert (Q8 : nt_cc x8 = nt_cc x7).
  { destruct a7; [inversion E8; auto|]. apply onq_h_inv in E8. auto. }
  clear E8. apply sbind_inv in H. destruct H as (x9 & a9 & E9 & H). unfold sread in E9.
  assert (Q9 : nt_cc x9 = nt_cc x8) by (inversion E9; auto). clear E9.
  apply sbind_inv in H. destruct H as (x10 & a10 & E10 & H).
  assert (Q10 : nt_cc x10 = nt_cc x9).
  { destruct a9; [inversion E10; auto|]. apply onp_h_inv in E10. auto. }
  clear E10. apply sbind_inv in H. destruct H as (x11 & a11 & E11 & H).
  assert (Q11 : nt_cc x11 = nt_cc x10).
  { destruct lct as [l|].
    - apply sbind_inv in E11. destruct E11 as (y1 & b1 & F1 & E11). apply onq_h_inv in F1.
      apply sbind_inv in E11. destruct E11 as (y2 & b2 & F2 & E11). apply onp_h_inv in F2.
      destruct (nltb _ _).
      + apply sbind_inv in E11. destruct E11 as (y3 & b3 & F3 & E11).
        apply onq_h_inv in F3. apply onp_h_inv in E11. congruence.
      + inversion E11. congruence.
    - apply sbind_inv in E11. destruct E11 as (y3 & b3 & F3 & E11).
      apply onq_h_inv in F3. apply onp_h_inv in E11. congruence. }
  clear E11. apply sbind_inv in H. destruct H as (x12 & a12 & E12 & H). apply onq_h_inv in E12.
  apply sbind_inv in H. destruct H as (x13 & a13 & E13 & H). apply onp_h_inv in E13.
  apply sbind_inv in H. destruct H as (x14 & a14 & E14 & H). apply onq_c_inv, interp_adds in E14.
  apply sbind_inv in H. destruct H as (x15 & a15 & E15 & H). apply onp_c_inv in E15.
  apply sbind_inv in H. destruct H as (x16 & a16 & E16 & H). apply onq_h_inv in E16.
  apply sbind_inv in H. destruct H as (x17 & a17 & E17 & H). apply onp_h_inv in E17.
  assert (Q18 : nt_cc x' = nt_cc x17) by (unfold sread in H; inversion H; auto).
  destruct E14 as ((A1 & A2) & A3). destruct E1 as (B1 & B2), E3 as (C1 & C2), E5 as (D1 & D2).
  assert (Z1 : nt_cc x13 = nt_cc x5) by congruence.
  assert (Z2 : nt_cc x' = nt_cc x14) by congruence.
  unfold adds. rewrite Z2. rewrite Z1 in *. rewrite E4 in *. rewrite E2 in *. split; [split; lia|]. auto.
Qed.

Lemma neep_rows lct tmax tmin (a a' : neep_args (T:=R)) p :
  make_neep_model_data lct tmax tmin a = (a', Ok p) ->
  length (n_cc a) = 2%nat /\ length (n_cc a') = 4%nat.
Proof.
  unfold make_neep_model_data. cbv zeta. intros H.
  match type of H with context [neep_body ?l ?b ?c ?x] => set (x0 := x) in H end.
  destruct (neep_body lct tmax tmin x0) as [x' r] eqn:E. inversion H; subst. clear H.
  apply neep_body_rows in E. destruct E as ((A1 & A2) & A3).
  unfold x0, new_table in A1, A2. cbn [nt_cc t_data t_temps length] in A1, A2.
  unfold convert_all in A1. rewrite map_length in A1. cbn [nt_args n_cc]. lia.
Qed.
