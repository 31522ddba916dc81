(** Proofs for C69. *)
From Coq Require Import Reals QArith Lra Psatz Lia List Bool.
From Verif.Base Require Import Num Res Tac.
From Verif.Model Require Import Util.
From Verif.Spec Require Import FitSpec.
From Verif.Proofs Require Import UnitsR.
Import ListNotations.
Local Open Scope R_scope.

Lemma nsum_from (l : list R) a : fold_left nadd l a = a + total l.
Proof.
  revert a. induction l as [|x l IH]; intros a; cbn [fold_left total].
  - ring.
  - rewrite IH. cbn [nadd RNum]. ring.
Qed.
Lemma nsum_total (l : list R) : nsum l = total l.
Proof. unfold nsum. rewrite nsum_from, lit0_R. ring. Qed.

Lemma residuals_distance (s r : list R) :
  total (map nsq (map (fun p : R * R => nsub (fst p) (snd p)) (combine s r))) = distance2 s r.
Proof.
  revert r. induction s as [|x s IH]; intros [|y r]; cbn [combine map total distance2]; auto.
  rewrite IH. cbn [fst snd]. unfold nsq. cbn [nsub nmul RNum]. ring.
Qed.
Lemma spread_distance (s : list R) (m : R) :
  total (map (fun x => nsq (nsub x m)) s) = distance2 s (flat m s).
Proof.
  induction s as [|x s IH]; cbn [map total distance2 flat]; auto.
  unfold flat in IH. rewrite IH. unfold nsq. cbn [nsub nmul RNum]. ring.
Qed.
Lemma repeat_flat (s : list R) (y : R) : repeat y (length s) = flat y s.
Proof. unfold flat. induction s as [|x s IH]; cbn [repeat length map]; [reflexivity|]. f_equal. exact IH. Qed.

Lemma nZ_INR n : nZ (T:=R) (Z.of_nat n) = INR n.
Proof. unfold nZ. rewrite INR_IZR_INZ. rnum. unfold Rdiv. rewrite ?Rinv_1. ring. Qed.

Lemma d2_nonneg l m : 0 <= distance2 l m.
Proof. revert m. induction l as [|x l IH]; intros [|y m]; cbn [distance2]; try lra.
  specialize (IH m). pose proof (Rle_0_sqr (x - y)) as Q. unfold Rsqr in Q. lra. Qed.
Lemma d2_zero l m : length l = length m -> (distance2 l m = 0 <-> l = m).
Proof.
  revert m. induction l as [|x l IH]; intros [|y m] L; cbn [distance2]; try discriminate.
  - tauto.
  - injection L as L. specialize (IH m L). pose proof (d2_nonneg l m) as P.
    pose proof (Rle_0_sqr (x - y)) as Q. unfold Rsqr in Q. split.
    + intros H. assert (Hxy : x - y = 0) by (apply Rsqr_0_uniq; unfold Rsqr; lra).
      assert (D : distance2 l m = 0) by lra. apply IH in D. f_equal; [lra|exact D].
    + intros H. injection H as -> ->. assert (D : distance2 m m = 0) by (apply IH; auto).
      rewrite D. ring.
Qed.
Lemma flat_length (x : R) l : length (flat x l) = length l.
Proof. apply map_length. Qed.

(** ** The value *)
Lemma r2_inv s r v :
  calculate_r_squared s r = Ok v -> length r = length s ->
  distance2 s (flat (average s) s) <> 0 /\ s <> []
  /\ v = 1 - distance2 s r / distance2 s (flat (average s) s).
Proof.
  unfold calculate_r_squared. intros H L.
  apply rbind_ok in H. destruct H as (fit & F & H).
  assert (fit = r) as ->.
  { destruct r as [|y [|y' r]].
    - apply rbind_ok in F. destruct F as (? & _ & F). congruence.
    - rewrite <- L in F. cbn in F. congruence.
    - apply rbind_ok in F. destruct F as (? & _ & F). congruence. }
  apply rbind_ok in H. destruct H as (mean & M & H). apply pydiv_inv in M.
  destruct M as (Z & ->). rewrite nZ_INR in *. rewrite nsum_total in *.
  apply rbind_ok in H. destruct H as (q & Q & H). apply pydiv_inv in Q. destruct Q as (Z2 & ->).
  rewrite !nsum_total, residuals_distance, spread_distance in H.
  rewrite !nsum_total, spread_distance in Z2.
  fold (average s) in Z2, H. apply Ok_inj in H. rewrite lit1_R in H. cbn [nsub RNum] in H.
  split; [exact Z2|]. split; [intros ->; apply Z; reflexivity|]. congruence.
Qed.
Lemma flat_varies s : s <> [] -> distance2 s (flat (average s) s) <> 0 -> varies s.
Proof.
  intros N D. destruct s as [|a s]; [congruence|].
  destruct (Forall_Exists_dec (fun x => x = a) (fun x => Req_EM_T x a) s) as [F|E].
  - exfalso. apply D. apply d2_zero; [symmetry; apply flat_length|].
    assert (E : s = flat a s).
    { clear D N. induction F as [|x l -> F IH]; cbn; [reflexivity|]. f_equal. exact IH. }
    assert (T : forall l : list R, total (flat a l) = INR (length l) * a).
    { induction l as [|x l IH]; [cbn; ring|]. change (length (x :: l)) with (S (length l)).
      rewrite S_INR. change (flat a (x :: l)) with (a :: flat a l). cbn [total].
      rewrite IH. ring. }
    assert (A : average (a :: s) = a).
    { unfold average. cbn [total]. rewrite E at 1. rewrite T.
      change (length (a :: s)) with (S (length s)). rewrite S_INR.
      field. pose proof (pos_INR (length s)). lra. }
    rewrite A. cbn. f_equal. exact E.
  - apply Exists_exists in E. destruct E as (x & I & Nx). exists x, a. simpl. auto.
Qed.
Lemma varies_flat s m : varies s -> distance2 s (flat m s) <> 0.
Proof.
  intros (x & y & X & Y & N) D. apply d2_zero in D; [|symmetry; apply flat_length].
  assert (A : forall z, In z s -> z = m).
  { intros z I. rewrite D in I. apply in_map_iff in I. destruct I as (? & -> & _). reflexivity. }
  apply N. rewrite (A x X), (A y Y). reflexivity.
Qed.

Lemma r2_run s r :
  varies s -> length r = length s ->
  calculate_r_squared s r = Ok (1 - distance2 s r / distance2 s (flat (average s) s)).
Proof.
  intros V L. unfold calculate_r_squared.
  assert (N : s <> []) by (destruct V as (x & y & X & _); intros ->; destruct X).
  assert (F : (match r with
     | [y] => Ok (repeat y (length s))
     | _ => let! _ := guard ValueError (orb (Nat.eqb (length s) (length r)) (Nat.eqb (length s) 1)) in Ok r
     end) = Ok r).
  { rewrite L, Nat.eqb_refl. cbn [orb guard rbind]. destruct r as [|y [|y' r]]; auto.
    rewrite <- L. reflexivity. }
  rewrite F. cbn [rbind]. rewrite nZ_INR, nsum_total.
  rewrite pydiv_ok. 2: { apply not_0_INR. destruct s; [congruence|discriminate]. }
  cbn [rbind]. rewrite !nsum_total, residuals_distance, spread_distance.
  fold (average s). rewrite pydiv_ok by (apply varies_flat; exact V).
  cbn [rbind]. rewrite lit1_R. reflexivity.
Qed.

Lemma r2_defined s r v :
  length r = length s ->
  calculate_r_squared s r = Ok v <->
  varies s /\ v = 1 - distance2 s r / distance2 s (flat (average s) s).
Proof.
  intros L. split.
  - intros H. destruct (r2_inv _ _ _ H L) as (Z & N & E). split; [apply flat_varies|]; auto.
  - intros (V & ->). apply r2_run; auto.
Qed.

Lemma r2_at_most_one s r v :
  length r = length s -> calculate_r_squared s r = Ok v -> v <= 1 /\ (v = 1 <-> r = s).
Proof.
  intros L H. destruct (r2_inv _ _ _ H L) as (Z & N & ->).
  pose proof (d2_nonneg s r) as P. pose proof (d2_nonneg s (flat (average s) s)) as P2.
  set (t := distance2 s (flat (average s) s)) in *. assert (T : 0 < t) by lra.
  assert (I : 0 < / t) by (apply Rinv_0_lt_compat; exact T).
  split.
  - assert (0 <= distance2 s r / t) by (apply Rmult_le_pos; lra). lra.
  - split.
    + intros E. assert (D : distance2 s r = 0).
      { replace (distance2 s r) with (distance2 s r / t * t) by (field; lra).
        replace (distance2 s r / t) with 0 by lra. ring. }
      apply d2_zero in D; auto.
    + intros ->. assert (D : distance2 s s = 0) by (apply d2_zero; auto).
      rewrite D. unfold Rdiv. rewrite Rmult_0_l. ring.
Qed.

Lemma r2_mean s : varies s -> calculate_r_squared s (flat (average s) s) = Ok 0.
Proof.
  intros V. rewrite r2_run by (auto using flat_length). f_equal.
  field. apply varies_flat. exact V.
Qed.
Lemma r2_one s y : varies s -> calculate_r_squared s [y] = calculate_r_squared s (flat y s).
Proof.
  intros V. destruct s as [|a [|b s]].
  - destruct V as (x & ? & [] & _).
  - destruct V as (x & z & [<-|[]] & [<-|[]] & N). congruence.
  - unfold calculate_r_squared. rewrite repeat_flat. f_equal.
    cbn [flat map length Nat.eqb]. rewrite map_length, Nat.eqb_refl. reflexivity.
Qed.

(** ** Units *)
Lemma total_affine k b l : total (map (fun x => k * x + b) l) = k * total l + INR (length l) * b.
Proof.
  induction l as [|x l IH]; [cbn; ring|]. cbn [map total]. rewrite IH.
  change (length (x :: l)) with (S (length l)). rewrite S_INR. ring.
Qed.
Lemma d2_affine k b l m :
  distance2 (map (fun x => k * x + b) l) (map (fun x => k * x + b) m) = k * k * distance2 l m.
Proof.
  revert m. induction l as [|x l IH]; intros [|y m]; cbn [map distance2]; try ring.
  rewrite IH. ring.
Qed.
Lemma average_affine k b l : l <> [] ->
  average (map (fun x => k * x + b) l) = k * average l + b.
Proof.
  intros N. unfold average. rewrite total_affine, map_length. field.
  apply not_0_INR. destruct l; [congruence|discriminate].
Qed.
Lemma r2_units k b s r :
  k <> 0 -> varies s -> length r = length s ->
  calculate_r_squared (map (fun x => k * x + b) s) (map (fun x => k * x + b) r)
  = calculate_r_squared s r.
Proof.
  intros K V L. rewrite (r2_run s r) by auto.
  assert (V' : varies (map (fun x => k * x + b) s)).
  { destruct V as (x & y & X & Y & N). exists (k * x + b), (k * y + b).
    split; [apply (in_map (fun x => k * x + b)); exact X|].
    split; [apply (in_map (fun x => k * x + b)); exact Y|]. intros E. apply N.
    apply (Rmult_eq_reg_l k); lra. }
  rewrite r2_run by (auto; rewrite !map_length; auto).
  rewrite average_affine by (destruct V as (x & ? & I & _); intros ->; destruct I).
  assert (F : flat (k * average s + b) (map (fun x => k * x + b) s)
              = map (fun x => k * x + b) (flat (average s) s)).
  { unfold flat. rewrite !map_map. reflexivity. }
  rewrite F, !d2_affine. f_equal. f_equal.
  field. split; [apply varies_flat; exact V|exact K].
Qed.
