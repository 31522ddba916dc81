(** A Title 24 unit whose rated HSPF belongs to a COP of 3 at 17 F, and a root finder that
    finds it but tries another value last. *)
From Coq Require Import Reals QArith Lra Psatz Lia List Bool String.
From Verif.Base Require Import Num Res Tac.
From Verif.Model Require Import Units Util Psychrometrics Conditions Defrost Fan Tabular Unit
  NREL BaseModel Title24 DXUnit.
From Verif.Spec Require Import NrelSpec ModelSpec RatingSpec Title24Spec.
From Verif.Proofs Require Import UnitsR NrelProofs ToyUnit T24Cache ModelProofs T24Cooling T24Heating.
Import ListNotations.
Local Open Scope R_scope.

Section BinOk.
  Variables cd q47 q35 q17 e47 e35 e17 : R.
  Hypothesis CD : 0 <= cd < 1.
  Hypothesis Q47 : 0 < q47.

  Lemma bin_ok acc t fr : t < 65 ->
    0 < frosted_line q17 q35 q47 t -> 0 < frosted_line e17 e35 e47 t ->
    exists r, t24_bin cd q47 q35 q17 e47 e35 e17 acc (t, fr) = Ok r
      /\ 0 < bin_electricity cd q17 q35 q47 e17 e35 e47 t.
  Proof.
    intros T C E. unfold t24_bin. cbv zeta.
    set (low := (_ && _)%bool).
    assert (LOW : low = true /\ (17 < t < 45) \/ low = false /\ ~ (17 < t < 45)).
    { unfold low. cbn [nltb RNum]. replace (lit 17) with 17 by (rnum; lra). replace (lit 45) with 45 by (rnum; lra).
      destruct (Rltb_spec 17 t), (Rltb_spec t 45); cbn [andb]; [left|right|right|right]; split; auto; lra. }
    clearbody low.
    assert (LINE : forall a17 a35 a47 : R,
      nadd a17 (nmul (if low then ndiv (nsub a35 a17) (nsub (lit 35) (lit 17))
                  else ndiv (nsub a47 a17) (nsub (lit 47) (lit 17))) (nsub t (lit 17)))
      = frosted_line a17 a35 a47 t).
    { intros a b e. unfold frosted_line. destruct LOW as [[-> L]|[-> L]].
      - destruct (Rlt_dec 17 t), (Rlt_dec t 45); try (exfalso; lra). rnum. field.
      - destruct (Rlt_dec 17 t), (Rlt_dec t 45); try (exfalso; lra); rnum; field. }
    rewrite (LINE q17 q35 q47), (LINE e17 e35 e47).
    assert (LD : nmul (nmul (ndiv (nsub (lit 65) t) (nsub (lit 65) (lit 5))) (lit 0.77)) q47 = bin_load q47 t).
    { unfold bin_load. rnum. field. }
    rewrite LD.
    assert (BL : 0 < bin_load q47 t).
    { unfold bin_load. apply Rmult_lt_0_compat; [|lra]. apply Rmult_lt_0_compat; lra. }
    unfold bin_electricity. cbv zeta.
    set (cap := frosted_line q17 q35 q47 t) in *. set (e := frosted_line e17 e35 e47 t) in *.
    set (bl := bin_load q47 t) in *. clearbody cap e bl. clear LINE LD LOW low.
    rewrite pydiv_ok by lra. cbn [rbind].
    assert (X : pymin (bl / cap) (lit 1) = Rmin (bl / cap) 1).
    { generalize (bl / cap). intros z. rewrite lit1_R. unfold pymin, Rmin. cbn [nltb RNum].
      destruct (Rltb_spec 1 z), (Rle_dec z 1); lra. }
    rewrite X.
    assert (X0 : 0 < Rmin (bl / cap) 1).
    { apply Rmin_glb_lt; [apply Rdiv_lt_0_compat; assumption|lra]. }
    assert (X1 : Rmin (bl / cap) 1 <= 1) by apply Rmin_r.
    assert (XC : Rmin (bl / cap) 1 * cap <= bl).
    { apply Rle_trans with (bl / cap * cap).
      - apply Rmult_le_compat_r; [lra|apply Rmin_l].
      - right. field. lra. }
    set (x := Rmin (bl / cap) 1) in *. clearbody x.
    assert (PLF : 0 < 1 - cd * (1 - x)) by nra.
    assert (SG : exists s, (if nleb t (lit 0) then Ok (lit 0)
        else let! cop := pydiv cap e in
             if nltb cop (lit 1) then Ok (lit 0)
             else if nleb t (lit 5) then Ok (lit 0.5) else Ok (lit 1)) = Ok s).
    { destruct (nleb t (lit 0)); [eauto|]. rewrite pydiv_ok by lra. cbn [rbind].
      destruct (nltb (cap / e) (lit 1)); [eauto|]. destruct (nleb t (lit 5)); eauto. }
    destruct SG as (s & SG). rewrite SG. cbn [rbind]. cbn [nmul nsub RNum]. rewrite lit1_R.
    rewrite pydiv_ok by lra. cbn [rbind].
    eexists. split; [reflexivity|].
    assert (S : 0 <= bin_running t cap e <= 1).
    { unfold bin_running. destruct (Rle_dec t 0); [lra|]. destruct (Rlt_dec _ 1); [lra|].
      destruct (Rle_dec t 5); lra. }
    set (sg := bin_running t cap e) in *. clearbody sg.
    assert (0 < x * e) by (apply Rmult_lt_0_compat; lra).
    assert (0 <= x * cap) by nra.
    assert (A : x * e * sg / (1 - cd * (1 - x)) >= 0).
    { apply Rle_ge, Rmult_le_pos; [nra|]. apply Rlt_le, Rinv_0_lt_compat. lra. }
    destruct (Req_dec sg 0) as [->|NS].
    - unfold Rdiv in *. rewrite Rmult_0_r in *. lra.
    - assert (0 < x * e * sg / (1 - cd * (1 - x))).
      { apply Rdiv_lt_0_compat; [nra|lra]. }
      nra.
  Qed.

  Lemma bins_ok l : forall acc,
    Forall (fun b => fst b < 65 /\ 0 < snd b /\ 0 < frosted_line q17 q35 q47 (fst b)
                     /\ 0 < frosted_line e17 e35 e47 (fst b)) l ->
    exists r, rfold (t24_bin cd q47 q35 q17 e47 e35 e17) acc l = Ok r
      /\ 0 <= fold_right Rplus 0
             (map (fun b => bin_electricity cd q17 q35 q47 e17 e35 e47 (fst b) * snd b) l)
      /\ (l <> [] -> 0 < fold_right Rplus 0
             (map (fun b => bin_electricity cd q17 q35 q47 e17 e35 e47 (fst b) * snd b) l)).
  Proof.
    induction l as [|[t fr] l IH]; intros acc F; cbn [rfold map fold_right fst snd].
    - eexists. split; [reflexivity|]. split; [lra|]. congruence.
    - inversion F as [|? ? (A & B & C & D) F']; subst. cbn [fst snd] in *.
      destruct (bin_ok acc t fr A C D) as (r & E & P). rewrite E. cbn [rbind].
      destruct (IH r F') as (r' & E' & P1 & _). exists r'. split; [exact E'|].
      assert (0 < bin_electricity cd q17 q35 q47 e17 e35 e47 t * fr) by (apply Rmult_lt_0_compat; lra).
      split; [|intros _]; lra.
  Qed.
End BinOk.

Definition t24_base : dxunit R :=
  wu_kwargs [("cap17"%string, KList [7000]); ("cap35"%string, KList [8000])]
    (toy_unit 0 (toy_defrost DCTimed DSReverseCycle)).
(** Its HSPF if its COP at 17 F is [k]. *)
Definition base_e35 (k : R) : R := (7000 / k + (35 - 17) / (47 - 17) * (10000 / 4 - 7000 / k)) * 0.985.
Definition base_hspf (k : R) : R :=
  seasonal_heating 0.25 7000 8000 10000 (7000 / k) (base_e35 k) (10000 / 4).
Definition t24_heater : dxunit R := wu_hspf (Some (base_hspf 3)) t24_base.

Section Generic.
  Variable u : dxunit R.
  Variable target k : R.
  Hypothesis CAP : geti (sd_net_cap (u_h u)) 0 = Ok 10000.
  Hypothesis COP : arr (sd_net_cop (u_h u)) 0 = Ok 4.
  Hypothesis P35 : p35 u 0 = Ok 8000.
  Hypothesis P17 : p17 u 0 = Ok 7000.
  Hypothesis K35 : kwarg_entry "cop35" u 0 = None.
  Hypothesis DF : has_defrost u = true.
  Hypothesis CD : sd_cd (u_h u) = 0.25.
  Hypothesis HSPF : u_hspf u = Some target.
  Hypothesis K : k = 3 \/ k = 5.

  Lemma pair_gen : exists p, pair_of u 0 k = Ok p /\ snd p <> 0.
  Proof.
    assert (KN : k <> 0) by lra.
    assert (E17 : 1400 <= 7000 / k <= 2400) by (destruct K as [-> | ->]; lra).
    assert (Y : nmul (nadd (7000 / k) (nmul (lit 0.6) (nsub (10000 / 4) (7000 / k)))) (lit 0.985)
                = base_e35 k).
    { unfold base_e35. rnum. lra. }
    assert (EB : 1900 <= base_e35 k <= 2500) by (unfold base_e35; lra).
    unfold pair_of. rewrite CAP. cbn [rbind]. rewrite COP. cbn [rbind].
    rewrite (pydiv_ok 10000 4) by lra. cbn [rbind].
    rewrite P35. cbn [rbind]. rewrite P17. cbn [rbind].
    rewrite (pydiv_ok 7000 k) by exact KN. cbn [rbind].
    unfold side35. rewrite K35, DF. cbv iota zeta. rewrite Y.
    rewrite pydiv_ok by lra. cbn [rbind fst snd]. rewrite CD.
    rewrite bins_eq.
    destruct (bins_ok 0.25 10000 8000 7000 (10000 / 4) (base_e35 k) (7000 / k) ltac:(lra) ltac:(lra)
                heating_bins (lit 0, lit 0)) as (r & E & _ & P).
    { set (a := 7000 / k) in *. set (b := base_e35 k) in *. clearbody a b.
      unfold heating_bins, frosted_line. repeat apply Forall_cons; try apply Forall_nil; cbn [fst snd];
        repeat match goal with |- context [Rlt_dec ?x ?y] => destruct (Rlt_dec x y); try (exfalso; lra) end;
        (split; [lra|]); (split; [lra|]); split; lra. }
    rewrite E. cbn [rbind]. apply bins_inv in E. destruct E as [_ E2]. cbn [snd] in E2. rewrite lit0_R in E2.
    specialize (P ltac:(discriminate)). rewrite pydiv_ok by lra. cbn [rbind].
    rewrite HSPF. cbn [need rbind].
    eexists. split; [reflexivity|]. cbn [snd].
    apply Rgt_not_eq, Rdiv_lt_0_compat; lra.
  Qed.

  Hypothesis A17 : anchor17 u 0 7000.
  Hypothesis A35 : anchor35 u 0 8000.
  Hypothesis N35 : not_supplied u "cop35".
  Hypothesis DS : df_strategy (u_defrost u) <> DSNone.

  Lemma pair_val : exists k35, pair_of u 0 k = Ok (base_hspf k - target, k35) /\ k35 <> 0.
  Proof.
    destruct pair_gen as ([y k35] & OK & N). exists k35. split; [|exact N]. rewrite OK. do 2 f_equal.
    destruct (pair_inv _ _ _ _ OK) as (q17 & q35 & q47 & k47 & e35 & tg & A & B & C & KK & _ & _ & I & _ & T & E).
    cbn [fst] in E.
    assert (q17 = 7000) by (eapply anchor17_fun; eassumption).
    assert (q35 = 8000) by (eapply anchor35_fun; eassumption).
    assert (q47 = 10000) by (apply geti_ok in CAP; unfold anchor47 in C; congruence).
    assert (k47 = 4) by (apply arr_ok in COP; unfold entry in *; congruence).
    assert (tg = target) by congruence. subst q17 q35 q47 k47 tg.
    assert (e35 = base_e35 k).
    { destruct I as [(z & Z & _)|[_ ->]]; [exfalso; eapply supplied_absent; eassumption|].
      unfold base_e35. destruct (df_strategy (u_defrost u)); [congruence| |]; reflexivity. }
    subst e35. rewrite CD in E. exact E.
  Qed.
End Generic.

Lemma heater_pair k : k = 3 \/ k = 5 ->
  exists k35, pair_of t24_heater 0 k = Ok (base_hspf k - base_hspf 3, k35) /\ k35 <> 0.
Proof.
  intros K. unfold t24_heater. generalize (base_hspf 3). intros target.
  apply pair_val; try reflexivity; try assumption.
  - left. exists [7000]. split; reflexivity.
  - left. exists [8000]. split; reflexivity.
  - intros v [X|[X|[]]]; discriminate X.
  - discriminate.
Qed.

(** Stops at 3 if that is a root, but tries 5 before it does. *)
Definition late_sol : solvers R :=
  {| brentq := fun _ a _ => Ok a;
     newton := fun _ => PAsk 3 (fun e => if Req_EM_T e 0 then PAsk 5 (fun _ => PDone 3)
                                         else PFail RuntimeError) |}.
(** Stops at 3 if that is a root. *)
Definition prompt_sol : solvers R :=
  {| brentq := fun _ a _ => Ok a;
     newton := fun _ => PAsk 3 (fun e => if Req_EM_T e 0 then PDone 3 else PFail RuntimeError) |}.

Lemma late_sound : newton_finds_roots 0 late_sol.
Proof.
  intros f g x H. cbn in H. apply rbind_ok in H. destruct H as (e & E & H).
  destruct (Req_EM_T e 0) as [->|N]; [|discriminate]. cbn in H.
  apply rbind_ok in H. destruct H as (e5 & E5 & H). apply Ok_inj in H. subst x.
  exists 0. split; [exact E|]. rewrite Rabs_R0. lra.
Qed.
Lemma prompt_sound : newton_finds_roots 0 prompt_sol.
Proof.
  intros f g x H. cbn in H. apply rbind_ok in H. destruct H as (e & E & H).
  destruct (Req_EM_T e 0) as [->|N]; [|discriminate]. cbn in H. apply Ok_inj in H. subst x.
  exists 0. split; [exact E|]. rewrite Rabs_R0. lra.
Qed.

(** Powers exist whenever the root finder succeeds. *)
Section Runs.
  Variable sol : solvers R.
  Variable u : dxunit R.
  Variable c : cond R.
  Variables q17 q35 q47 k47 w x y k35 err : R.
  Variable rest : list R.
  Notation i := (c_speed c).
  Hypothesis I : (i < sd_n (u_h u))%nat.
  Hypothesis P17 : p17 u i = Ok q17.
  Hypothesis P35 : p35 u i = Ok q35.
  Hypothesis Q47 : geti (sd_net_cap (u_h u)) i = Ok q47.
  Hypothesis K47 : geti (sd_net_cop (u_h u)) i = Ok (Some k47).
  Hypothesis KN : k47 <> 0.
  Hypothesis W : arr (sd_fan_power (u_h u)) i = Ok w.
  Hypothesis X : run_prober_pure (error_of u i) (newton sol 3) = Ok x.
  Hypothesis XN : x <> 0.
  Hypothesis Y : rev (trials (error_of u i) (newton sol 3)) = y :: rest.
  Hypothesis PY : pair_of u i y = Ok (err, k35).
  Hypothesis K35 : k35 <> 0.

  Lemma calc_runs d : capok u d -> t_cop17 d = None -> t_cop35 d = None ->
    exists d' l17 l35, calculate_cops sol u c d = (d', Ok tt)
      /\ t_cop17 d' = Some l17 /\ nth_error l17 i = Some (Some x)
      /\ t_cop35 d' = Some l35 /\ nth_error l35 i = Some (Some k35).
  Proof.
    intros C N17 N35. unfold calculate_cops. cbv zeta.
    rewrite sbind_eq. unfold init_key at 1, smod at 1. rewrite N35.
    rewrite sbind_eq. unfold init_key at 1, smod at 1. cbn [wt_cop35 t_cop17]. rewrite N17.
    rewrite sbind_eq. replace (lit 3) with 3 by (rnum; lra).
    set (d0 := wt_cop17 _ _).
    assert (R0 : ready u d0).
    { split; [exact C|]. eexists. split; [reflexivity|apply repeat_length]. }
    destruct (prober_run u c (newton sol 3) d0 R0) as (d1 & E1 & R1 & S1 & A1).
    change (run_prober _ (newton sol 3) d0) with (run_prober (probe u c) (newton sol 3) d0).
    rewrite E1. rewrite X. specialize (A1 x X). rewrite Y in A1.
    destruct A1 as (q & Q & (l & L & NL)). rewrite PY in Q. apply Ok_inj in Q. subst q. cbn [snd] in NL.
    unfold write_key. rewrite sbind_eq. unfold sread. rewrite S1. unfold d0.
    cbn [wt_cop17 t_cop17 need rbind]. unfold seti. rewrite repeat_length.
    destruct (Nat.ltb_spec i (sd_n (u_h u))) as [_|B]; [|lia]. unfold smod.
    eexists _, _, l. split; [reflexivity|]. split; [reflexivity|].
    split; [apply upd_same; rewrite repeat_length; exact I|]. split; [exact L|exact NL].
  Qed.

  Lemma steady_runs : exists p,
    gross_steady_state_heating_power (Title24DXModel sol) u (Some c) = Ok p.
  Proof.
    assert (E : exists p, fresh (t24_heating_power sol) u c = Ok p).
    { unfold fresh, t24_heating_power. cbv zeta. rewrite Q47, K47, W.
      rewrite sbind_eq. unfold slift at 1. rewrite sbind_eq.
      destruct (get_cap17_pure u c blank_t24 (capok_blank u)) as (d1 & E1 & C1 & [S1 S2] & _).
      rewrite E1, P17. rewrite sbind_eq. unfold slift at 1. rewrite sbind_eq.
      destruct (calc_runs d1 C1) as (d2 & l17 & l35 & E2 & L17 & N17 & L35 & N35);
        [rewrite S1; reflexivity|rewrite S2; reflexivity|].
      unfold get_cop17. rewrite sbind_eq. unfold sget. rewrite S1. cbn [blank_t24 t_cop17].
      rewrite sbind_eq, E2. unfold read_key, sread. rewrite L17. cbn [need rbind].
      unfold geti. rewrite N17. cbn [need rbind].
      unfold slift.
      repeat progress (rewrite ?sbind_eq; cbn [need rbind]; rewrite ?(pydiv_ok q47 k47) by exact KN;
        rewrite ?(pydiv_ok q17 x) by exact XN).
      unfold sret. cbn [snd]. eauto. }
    destruct E as (p & E). exists p. unfold gross_steady_state_heating_power, heating_conditions, product.
    cbn [rbind]. change (md_ghp (Title24DXModel sol) u c) with (fresh (t24_heating_power sol) u c).
    change (md_f_ghp (Title24DXModel sol)) with (unit_factor (T:=R)). unfold unit_factor.
    rewrite E. cbn [rbind]. cbn [nmul RNum]. rewrite lit1_R, Rmult_1_r. reflexivity.
  Qed.

  Lemma integrated_runs : exists p,
    gross_integrated_heating_power (Title24DXModel sol) u (Some c) = Ok p.
  Proof.
    unfold gross_integrated_heating_power, heating_conditions. cbn [rbind].
    change (md_gihp (Title24DXModel sol) u c) with (fresh (t24_integrated_power sol) u c).
    unfold fresh, t24_integrated_power. cbv zeta. rewrite Q47, K47, W.
    rewrite sbind_eq. unfold slift at 1. rewrite sbind_eq.
    destruct (get_cap35_pure u c blank_t24 (capok_blank u)) as (d0 & E0 & C0 & [S3 S4] & _).
    rewrite E0, P35. rewrite sbind_eq.
    destruct (get_cap17_pure u c d0 C0) as (d1 & E1 & C1 & [S1 S2] & _).
    rewrite E1, P17. rewrite sbind_eq. unfold slift at 1. rewrite sbind_eq.
    destruct (calc_runs d1 C1) as (d2 & l17 & l35 & E2 & L17 & N17 & L35 & N35);
      [rewrite S1, S3; reflexivity|rewrite S2, S4; reflexivity|].
    unfold get_cop35 at 1. rewrite sbind_eq. unfold sget at 1. rewrite S2, S4. cbn [blank_t24 t_cop35].
    rewrite sbind_eq, E2. unfold read_key at 1, sread at 1. rewrite L35. cbn [need rbind].
    unfold geti. rewrite N35.
    unfold get_cop17, sget, read_key, sread, sret, slift.
    repeat progress (rewrite ?sbind_eq; cbn [need rbind]; rewrite ?L17; unfold geti; rewrite ?N17;
      rewrite ?(pydiv_ok q47 k47) by exact KN; rewrite ?(pydiv_ok q35 k35) by exact K35;
      rewrite ?(pydiv_ok q17 x) by exact XN).
    cbn [snd]. eauto.
  Qed.
End Runs.

Definition heater_cond (f : R) : cond R := toy_cond 294 290 ((f + 459.67) * 5 / 9) 1.
Lemma heater_temp f : degF (ps_db (c_outdoor (heater_cond f))) = f.
Proof. unfold degF. cbn. lra. Qed.

Lemma late_trials : run_prober_pure (error_of t24_heater 0) (newton late_sol 3) = Ok 3
  /\ rev (trials (error_of t24_heater 0) (newton late_sol 3)) = [5; 3].
Proof.
  destruct (heater_pair 3 (or_introl eq_refl)) as (k3 & E3 & N3).
  destruct (heater_pair 5 (or_intror eq_refl)) as (k5 & E5 & N5).
  assert (F3 : error_of t24_heater 0 3 = Ok 0).
  { unfold error_of. rewrite E3. cbn [rbind fst]. f_equal. lra. }
  assert (F5 : exists e, error_of t24_heater 0 5 = Ok e).
  { unfold error_of. rewrite E5. cbn [rbind]. eauto. }
  destruct F5 as (e & F5).
  unfold late_sol. cbn [newton run_prober_pure trials]. rewrite F3. cbn [rbind].
  destruct (Req_EM_T 0 0) as [_|X]; [|destruct (X eq_refl)].
  cbn [run_prober_pure trials]. rewrite F5. cbn [rbind run_prober_pure trials]. auto.
Qed.
Lemma prompt_trials : run_prober_pure (error_of t24_heater 0) (newton prompt_sol 3) = Ok 3
  /\ rev (trials (error_of t24_heater 0) (newton prompt_sol 3)) = [3].
Proof.
  destruct (heater_pair 3 (or_introl eq_refl)) as (k3 & E3 & N3).
  assert (F3 : error_of t24_heater 0 3 = Ok 0).
  { unfold error_of. rewrite E3. cbn [rbind fst]. f_equal. lra. }
  unfold prompt_sol. cbn [newton run_prober_pure trials]. rewrite F3. cbn [rbind].
  destruct (Req_EM_T 0 0) as [_|X]; [|destruct (X eq_refl)].
  cbn [run_prober_pure trials]. auto.
Qed.

Lemma heater_facts (c : cond R) : c_speed c = 0%nat ->
  (c_speed c < sd_n (u_h t24_heater))%nat /\ p17 t24_heater (c_speed c) = Ok 7000
  /\ p35 t24_heater (c_speed c) = Ok 8000
  /\ geti (sd_net_cap (u_h t24_heater)) (c_speed c) = Ok 10000
  /\ geti (sd_net_cop (u_h t24_heater)) (c_speed c) = Ok (Some 4)
  /\ arr (sd_fan_power (u_h t24_heater)) (c_speed c) = Ok 300.
Proof.
  intros ->. unfold t24_heater. generalize (base_hspf 3). intros h.
  split; [cbn; lia|]. repeat split; reflexivity.
Qed.

Lemma heater_runs (late : bool) (c : cond R) : c_speed c = 0%nat ->
  let sol := if late then late_sol else prompt_sol in
  (exists p, gross_steady_state_heating_power (Title24DXModel sol) t24_heater (Some c) = Ok p)
  /\ exists p, gross_integrated_heating_power (Title24DXModel sol) t24_heater (Some c) = Ok p.
Proof.
  intros S sol. destruct (heater_facts c S) as (I & A & B & C & D & E).
  assert (X : run_prober_pure (error_of t24_heater (c_speed c)) (newton sol 3) = Ok 3).
  { rewrite S. destruct late; [apply late_trials|apply prompt_trials]. }
  assert (Y : exists y rest, rev (trials (error_of t24_heater (c_speed c)) (newton sol 3)) = y :: rest
    /\ (y = 3 \/ y = 5)).
  { rewrite S. destruct late; eexists _, _; (split; [apply late_trials || apply prompt_trials|]); auto. }
  destruct Y as (y & rest & Y & Y35). destruct (heater_pair y Y35) as (k35 & P & N). rewrite <- S in P.
  split.
  - eapply steady_runs with (k35 := k35) (x := 3); try eassumption; lra.
  - eapply integrated_runs with (k35 := k35) (x := 3); try eassumption; lra.
Qed.

(** * Cooling *)
Definition cooler : dxunit R := toy_unit 0 (toy_defrost DCTimed DSReverseCycle).
(** 67 F wet bulb and 80 F dry bulb inside, [f] outside, 400 cfm per ton. *)
Definition cooler_cond (f : R) : cond R :=
  mkCond (psych_wetbulb ((f + 459.67) * 5 / 9) 101325 290)
    (psych_wetbulb ((80 + 459.67) * 5 / 9) 101325 ((67 + 459.67) * 5 / 9)) 0 true (Some 125)
    (Some 0%nat) (Some 10000) (Some 1) (Some 1) (Some 1.2) (Some 1) (Some 1.2)
    (Some 1) (Some 1)
    (Some (400 * (0.028316846592 / 60) / (12000 * (1055.056 / 3600)))) (Some 125).

Lemma cooler_point f : t24_point (cooler_cond f) 67 f 80 400.
Proof.
  eexists _, _. split; [reflexivity|]. split; [reflexivity|]. split; [lra|].
  unfold degF, cfm_per_ton. cbn. repeat split; try lra; field; lra.
Qed.
Lemma cooler_factor : efficiency_factor cooler 1.
Proof. right. split; [intros v []|reflexivity]. Qed.
Lemma cooler_fan sol f : cooling_fan_power sol cooler (Some (cooler_cond f)) = Ok 300.
Proof.
  unfold cooling_fan_power. cbn [cooling_conditions rbind]. unfold fan_power. cbn.
  f_equal. rnum. lra.
Qed.

Lemma cooler_88 sol : exists k,
  gross_total_cooling_cop (M24 sol) cooler (Some (cooler_cond 88)) = Ok k
  /\ gross_total_cooling_capacity (M24 sol) cooler (Some (cooler_cond 88)) <> Ok 0.
Proof.
  pose proof (cooler_point 88) as P. set (c := cooler_cond 88) in *.
  assert (WET : t24_wet 67 88 80 400).
  { unfold t24_wet, t24_shr. eapply Rle_lt_trans; [apply Rmin_r|]. lra. }
  assert (WETB : nltb (t24_shr 67 88 80 400) (lit 1) = true).
  { apply Rltb_true. rewrite lit1_R. exact WET. }
  assert (SP : c_speed c = 0%nat) by reflexivity.
  destruct (total24 sol cooler c _ _ _ _ 10300 P) as (f & F & T & _); [reflexivity|].
  assert (FV : 0.9 < f < 1.2). { destruct F as [F _]. rewrite (F WET). lra. }
  specialize (T ltac:(lra)). 
  assert (CP : checked_product t24_gross_total_cooling_capacity unit_factor cooler c = Ok (f * 10300)) by exact T.
  destruct (cap_curve c _ _ _ _ P _ (wet_dec _ _ _ _)) as (fc & FC & EC).
  destruct (mild_curve c _ _ _ _ P _ (wet_dec _ _ _ _)) as (fm & FM & EM).
  destruct (hot_curve c _ _ _ _ P _ (wet_dec _ _ _ _)) as (fh & FH & EH).
  destruct FC as [FC _]. specialize (FC WET). destruct FM as [FM _]. specialize (FM WET).
  destruct FH as [FH _]. specialize (FH WET).
  assert (G : exists p, t24_gross_cooling_power cooler c = Ok p /\ 0 < p).
  { unfold t24_gross_cooling_power. rewrite (shr_eq cooler c _ _ _ _ P). cbn [rbind].
    rewrite (inputs_eq c _ _ _ _ P). cbn [rbind]. rewrite SP.
    change (geti (sd_net_cap (u_c cooler)) 0) with (Ok 10000). cbn [rbind].
    change (geti (sd_fan_power (u_c cooler)) 0) with (Ok (Some 300)). cbn [rbind].
    change (geti (sd_net_cop (u_c cooler)) 0) with (Ok (Some 4)). 
    change (geti (sd_gross_cap (u_c cooler)) 0) with (Ok (Some 10300)).
    change (u_seer cooler) with (Some 14). change (u_kwargs cooler) with (@nil (string * kwval R)).
    cbv zeta. rewrite EC, EM, EH, CP. cbn [rbind need find].
    replace (lit 1) with 1 by (rnum; lra). replace (lit 1.09) with 1.09 by (rnum; lra).
    replace (lit 3.413) with 3.413 by (rnum; lra). replace (lit 13) with 13 by (rnum; lra).
    replace (lit 82) with 82 by (rnum; lra). replace (lit 95) with 95 by (rnum; lra).
    replace (fr_Btu_Wh 14) with (14 * (1055.056 / 3600)) by (unfold fr_Btu_Wh, btu_h; rnum; lra).
    cbn [nltb nleb nmul nadd nsub ndiv RNum].
    rewrite (proj2 (Rltb_true 88 95)) by lra. rewrite (proj2 (Rltb_true 82 88)) by lra.
    rewrite (proj2 (Rleb_false 88 82)) by lra.
    assert (A : 0.9 < fc < 1.2) by lra. assert (B : 0.8 < fm < 1.2) by lra.
    assert (C : 0.8 < fh < 1.2) by lra.
    clear - A B C FV.
    rewrite (pydiv_ok fc fm) by lra. cbn [rbind].
    assert (AB : 0 < fc / fm) by (apply Rdiv_lt_0_compat; lra). set (x := fc / fm) in *. clearbody x.
    repeat (rewrite pydiv_ok by lra; cbn [rbind]).
    assert (S : 0 < x * (1.09 * 10000 + 300) / (1.09 * 10000 / (14 * (1055.056 / 3600)) - 300)).
    { apply Rdiv_lt_0_compat; lra. }
    set (s := _ / _) in S |- *. clearbody s.
    assert (Rp : 0 < 10300 / (fh * (10000 / 4 - 300 / 3.413))).
    { apply Rdiv_lt_0_compat; [lra|]. apply Rmult_lt_0_compat; lra. }
    set (r := _ / _) in Rp |- *. clearbody r.
    rewrite pydiv_ok by lra. eexists. split; [reflexivity|].
    apply Rdiv_lt_0_compat; lra. }
  destruct G as (p & G & GP).
  assert (G' : gross_cooling_power (M24 sol) cooler (Some c) = Ok p) by (apply gcp24; split; [exact G|lra]).
  exists (f * 10300 / p). split.
  - unfold gross_total_cooling_cop, both. rewrite T. cbn [rbind]. rewrite G'. cbn [rbind].
    apply pydiv_ok. lra.
  - rewrite T. intros X. apply Ok_inj in X. lra.
Qed.

Lemma heater_defrost : in_defrost (u_defrost t24_heater) (heater_cond 35) = true.
Proof.
  unfold t24_heater. generalize (base_hspf 3). intros h. unfold in_defrost. cbn.
  rewrite (proj2 (Rltb_true _ _)) by lra. reflexivity.
Qed.
Lemma heater_no_cop35 : not_supplied t24_heater "cop35".
Proof. intros v [X|[X|[]]]; discriminate X. Qed.

Lemma power_at_35_wrong : ~ forall sol u c17 c47 c35 p17 p47 p35 w, newton_finds_roots 0 sol ->
  c_speed c17 = c_speed c35 -> c_speed c47 = c_speed c35 ->
  degF (ps_db (c_outdoor c17)) = 17 -> degF (ps_db (c_outdoor c47)) = 47 ->
  degF (ps_db (c_outdoor c35)) = 35 -> in_defrost (u_defrost u) c35 = true ->
  not_supplied u "cop35" ->
  entry (sd_fan_power (u_h u)) (c_speed c35) w ->
  gross_steady_state_heating_power (Title24DXModel sol) u (Some c17) = Ok p17 ->
  gross_steady_state_heating_power (Title24DXModel sol) u (Some c47) = Ok p47 ->
  gross_integrated_heating_power (Title24DXModel sol) u (Some c35) = Ok p35 ->
  expected_at_35 u p17 p47 w p35.
Proof.
  intros H.
  destruct (proj1 (heater_runs true (heater_cond 17) eq_refl)) as (p17 & E17).
  destruct (proj1 (heater_runs true (heater_cond 47) eq_refl)) as (p47 & E47).
  destruct (proj2 (heater_runs true (heater_cond 35) eq_refl)) as (p35 & E35).
  assert (W : entry (sd_fan_power (u_h t24_heater)) (c_speed (heater_cond 35)) 300) by reflexivity.
  specialize (H late_sol t24_heater (heater_cond 17) (heater_cond 47) (heater_cond 35) p17 p47 p35 300
    late_sound eq_refl eq_refl (heater_temp 17) (heater_temp 47) (heater_temp 35) heater_defrost
    heater_no_cop35 W E17 E47 E35). unfold expected_at_35 in H.
  destruct (powers24_exact late_sol t24_heater (heater_cond 17) (heater_cond 47) (heater_cond 35) p17 p47 p35
    300 eq_refl eq_refl (heater_temp 17) (heater_temp 47) (heater_temp 35) heater_defrost
    heater_no_cop35 W E17 E47 E35) as (k17 & last & rest & q17 & K & L & Q & V).
  change (c_speed (heater_cond 35)) with 0%nat in *.
  rewrite (proj1 late_trials) in K. rewrite (proj2 late_trials) in L.
  apply Ok_inj in K. injection L as L _. subst k17 last.
  assert (q17 = 7000) by (eapply anchor17_fun; [exact Q|left; exists [7000]; split; reflexivity]). subst q17.
  change (df_strategy (u_defrost t24_heater)) with DSReverseCycle in *. cbv iota in *. lra.
Qed.

(** The expectation holds for a root finder that stops at once. *)
Lemma prompt_last : answers_last_trial prompt_sol.
Proof.
  intros f g x H. cbn in H |- *. apply rbind_ok in H. destruct H as (e & E & H). rewrite E.
  destruct (Req_EM_T e 0) as [->|N]; [|discriminate]. cbn in H. apply Ok_inj in H. subst x.
  exists []. reflexivity.
Qed.

Lemma cooler_cop sol : exists u c q w cop k,
  t24_point c 67 95 80 400 /\ nth_error (sd_net_cap (u_c u)) (c_speed c) = Some q
  /\ entry (sd_gross_cap (u_c u)) (c_speed c) (q + w)
  /\ entry (sd_fan_power (u_c u)) (c_speed c) w
  /\ entry (sd_net_cop (u_c u)) (c_speed c) cop
  /\ efficiency_factor u 1
  /\ cooling_fan_power sol u (Some c) = Ok w
  /\ net_total_cooling_cop sol (Title24DXModel sol) u (Some c) = Ok k /\ k < cop.
Proof.
  assert (G : entry (sd_gross_cap (u_c cooler)) (c_speed (cooler_cond 95)) (10000 + 300)).
  { replace (10000 + 300) with 10300 by lra. reflexivity. }
  assert (F : not_supplied cooler "input_cooling_efficiency_multiplier") by (intros v []).
  destruct (rated_cop24 sol cooler (cooler_cond 95) 10000 300 4 (cooler_point 95) eq_refl ltac:(lra)
    eq_refl ltac:(lra) G eq_refl ltac:(lra) F ltac:(lra) (cooler_fan sol 95)) as (_ & _ & K).
  exists cooler, (cooler_cond 95), 10000, 300, 4, (10000 / (10000 / 4 + 300 * (1 - 1 / 3.413))).
  split; [apply cooler_point|]. split; [reflexivity|]. split; [exact G|]. split; [reflexivity|].
  split; [reflexivity|]. split; [apply cooler_factor|]. split; [apply cooler_fan|].
  split; [exact K|]. lra.
Qed.
