(** SEER and HSPF of two units, one [k] times the size of the other (C45). *)
From Coq Require Import Reals QArith Lra Psatz Lia List Bool.
From Verif.Base Require Import Num Res Tac.
From Verif.Model Require Import Units Util Psychrometrics Conditions Defrost Fan Curves
  Tabular Unit DXUnit.
From Verif.Spec Require Import UnitSpec SeasonSpec.
From Verif.Proofs Require Import UnitsR UnitProofs3 UnitProofs4 SeerProofs.
Import ListNotations.
Local Open Scope R_scope.
Local Notation U := (dxunit R).

Definition rmap {X Y} (f : X -> Y) (r : res X) : res Y := let! x := r in Ok (f x).

Lemma rmap_bind {X Y Z} (f : X -> Y) r (g : Y -> res Z) :
  rbind (rmap f r) g = rbind r (fun x => g (f x)).
Proof. destruct r; reflexivity. Qed.
Lemma bind_map {X Y Z} (f : Y -> Z) (r : res X) (g : X -> res Y) :
  rmap f (rbind r g) = rbind r (fun x => rmap f (g x)).
Proof. destruct r; reflexivity. Qed.
Lemma bind_same {X Y} (r : res X) (f g : X -> res Y) :
  (forall x, f x = g x) -> rbind r f = rbind r g.
Proof. intros H. destruct r; simpl; auto. Qed.

Lemma rfold_map {A B} (f g : A -> B -> res A) (s : A -> A) l a :
  (forall a x, g (s a) x = rmap s (f a x)) -> rfold g (s a) l = rmap s (rfold f a l).
Proof.
  intros H. revert a. induction l as [|x l IH]; intros a; cbn [rfold]; [reflexivity|].
  rewrite H, rmap_bind, bind_map. apply bind_same. exact IH.
Qed.

Section Scale.
  Variable k : R.
  Hypothesis K : 0 < k.

  Definition sc (x : R) : R := k * x.
  Definition sc2 (x : R * R) : R * R := (k * fst x, k * snd x).
  Definition scp (P : point R) : point R := mkPoint (pt_t P) (k * pt_q P) (k * pt_p P).

  Lemma sc_leb a b : Rleb (k * a) (k * b) = Rleb a b.
  Proof.
    destruct (Rleb_spec a b) as [H|H]; destruct (Rleb_spec (k * a) (k * b)) as [H'|H'];
      try reflexivity; exfalso; nra.
  Qed.
  Lemma sc_ltb a b : Rltb (k * a) (k * b) = Rltb a b.
  Proof.
    destruct (Rltb_spec a b) as [H|H]; destruct (Rltb_spec (k * a) (k * b)) as [H'|H'];
      try reflexivity; exfalso; nra.
  Qed.
  Lemma div_both a b : pydiv (k * a) (k * b) = pydiv (T:=R) a b.
  Proof.
    destruct (Req_dec b 0) as [->|N].
    - rewrite Rmult_0_r, !pydiv_zero. reflexivity.
    - rewrite !pydiv_ok; [|exact N|nra]. cbn [ndiv RNum]. f_equal. field. split; first [exact N|lra].
  Qed.
  Lemma div_top a b : pydiv (k * a) b = rmap sc (pydiv (T:=R) a b).
  Proof.
    destruct (Req_dec b 0) as [->|N].
    - rewrite !pydiv_zero. reflexivity.
    - rewrite !pydiv_ok by exact N. cbn [ndiv RNum rmap rbind]. f_equal. unfold sc, Rdiv. ring.
  Qed.
  Lemma div_bottom a b : pydiv a (k * b) = rmap (fun x => x / k) (pydiv (T:=R) a b).
  Proof.
    destruct (Req_dec b 0) as [->|N].
    - rewrite Rmult_0_r, !pydiv_zero. reflexivity.
    - rewrite !pydiv_ok; [|exact N|nra]. cbn [ndiv RNum rmap rbind]. f_equal. field.
      split; first [exact N|lra].
  Qed.

  Lemma along_q a b x : along pt_q (scp a) (scp b) x = rmap sc (along pt_q a b x).
  Proof.
    unfold along. cbn [scp pt_q pt_t nsub RNum].
    replace (k * pt_q b - k * pt_q a) with (k * (pt_q b - pt_q a)) by ring.
    rewrite div_top, rmap_bind, bind_map. apply bind_same. intros s. unfold sc.
    cbn [rmap rbind nadd nsub nmul RNum]. f_equal. ring.
  Qed.
  Lemma along_p a b x : along pt_p (scp a) (scp b) x = rmap sc (along pt_p a b x).
  Proof.
    unfold along. cbn [scp pt_p pt_t nsub RNum].
    replace (k * pt_p b - k * pt_p a) with (k * (pt_p b - pt_p a)) by ring.
    rewrite div_top, rmap_bind, bind_map. apply bind_same. intros s. unfold sc.
    cbn [rmap rbind nadd nsub nmul RNum]. f_equal. ring.
  Qed.

  Lemma load_sc q t : cooling_load (k * q) t = k * cooling_load q t.
  Proof.
    rewrite !cooling_load_eq. unfold cool_load. rewrite <- RmaxRmult by lra. rewrite (Rmult_0_r k). f_equal.
    unfold Rdiv. ring.
  Qed.

  Lemma cycling_sc cd bl q p n :
    seer_cycling cd (k * bl) (k * q) (k * p) n = rmap sc2 (seer_cycling cd bl q p n).
  Proof.
    unfold seer_cycling. rewrite div_both, bind_map. apply bind_same. intros x.
    cbn [nmul RNum]. replace (x * (k * p) * n) with (k * (x * p * n)) by ring.
    rewrite div_top, rmap_bind, bind_map. apply bind_same. intros e.
    cbn [rmap rbind]. unfold sc2, sc. cbn [fst snd]. do 2 f_equal. ring.
  Qed.

  Lemma bin_two_sc cyc cd bl ql pl qf pf n :
    seer_bin_two cyc cd (k * bl) (k * ql) (k * pl) (k * qf) (k * pf) n
    = rmap sc2 (seer_bin_two cyc cd bl ql pl qf pf n).
  Proof.
    unfold seer_bin_two. cbn [nleb nltb RNum]. rewrite sc_leb, sc_ltb.
    destruct (Rleb bl ql); [apply cycling_sc|]. destruct (Rltb bl qf).
    - destruct cyc; [|apply cycling_sc]. cbn [nsub RNum].
      replace (k * qf - k * bl) with (k * (qf - bl)) by ring.
      replace (k * qf - k * ql) with (k * (qf - ql)) by ring.
      rewrite div_both, bind_map. apply bind_same. intros x.
      cbn [rmap rbind nadd nsub nmul RNum]. unfold sc2. cbn [fst snd]. f_equal. f_equal; ring.
    - cbn [rmap rbind nmul RNum]. unfold sc2. cbn [fst snd]. f_equal. f_equal; ring.
  Qed.

  Lemma bin_variable_sc cd bl ql pl qi pi qf pf n :
    seer_bin_variable cd (k * bl) (k * ql) (k * pl) (k * qi) (k * pi) (k * qf) (k * pf) n
    = rmap sc2 (seer_bin_variable cd bl ql pl qi pi qf pf n).
  Proof.
    unfold seer_bin_variable. cbn [nleb nltb RNum]. rewrite !sc_leb, sc_ltb, !div_both.
    rewrite bind_map. apply bind_same. intros cl.
    rewrite bind_map. apply bind_same. intros ci.
    rewrite bind_map. apply bind_same. intros cf.
    destruct (Rleb bl ql); [apply cycling_sc|]. cbn [nadd nsub nmul RNum].
    destruct (Rltb bl qi); [|destruct (Rleb bl qf)].
    - replace (k * qi - k * ql) with (k * (qi - ql)) by ring.
      rewrite div_bottom, rmap_bind, bind_map. apply bind_same. intros s.
      replace (cl + s / k * (k * bl - k * ql)) with (cl + s * (bl - ql)) by (field; lra).
      rewrite (Rmult_assoc k bl n), div_top, rmap_bind, bind_map. apply bind_same. intros e.
      cbn [rmap rbind]. unfold sc2, sc. cbn [fst snd]. reflexivity.
    - replace (k * qf - k * qi) with (k * (qf - qi)) by ring.
      rewrite div_bottom, rmap_bind, bind_map. apply bind_same. intros s.
      replace (ci + s / k * (k * bl - k * qi)) with (ci + s * (bl - qi)) by (field; lra).
      rewrite (Rmult_assoc k bl n), div_top, rmap_bind, bind_map. apply bind_same. intros e.
      cbn [rmap rbind]. unfold sc2, sc. cbn [fst snd]. reflexivity.
    - cbn [rmap rbind]. unfold sc2. cbn [fst snd]. f_equal. f_equal; ring.
  Qed.

  Lemma sums_sc bin bin' A B Bl Fl :
    (forall t bl ql pl qf pf n,
       bin' t (k * bl) (k * ql) (k * pl) (k * qf) (k * pf) n
       = rmap sc2 (bin t bl ql pl qf pf n)) ->
    seer_sums bin' (scp A) (scp B) (scp Bl) (scp Fl) = rmap sc2 (seer_sums bin A B Bl Fl).
  Proof.
    intros H. unfold seer_sums.
    replace (lit 0, lit 0) with (sc2 (lit 0, lit 0)) at 1
      by (unfold sc2; cbn [fst snd]; rewrite lit0_R, Rmult_0_r; reflexivity).
    apply rfold_map. intros a [t n]. cbn [scp pt_q]. rewrite load_sc.
    change (mkPoint (pt_t A) (k * pt_q A) (k * pt_p A)) with (scp A).
    rewrite !along_q, !along_p, rmap_bind, bind_map. apply bind_same. intros ql.
    rewrite rmap_bind, bind_map. apply bind_same. intros pl.
    rewrite rmap_bind, bind_map. apply bind_same. intros qf.
    rewrite rmap_bind, bind_map. apply bind_same. intros pf.
    unfold sc. rewrite H, rmap_bind, bind_map. apply bind_same. intros qe.
    cbn [rmap rbind nadd RNum]. unfold sc2. cbn [fst snd]. f_equal. f_equal; ring.
  Qed.

  Lemma slope_q A B Bl Fl E :
    seer_slope pt_q (scp A) (scp B) (scp Bl) (scp Fl) (scp E)
    = rmap sc (seer_slope pt_q A B Bl Fl E).
  Proof.
    unfold seer_slope. rewrite !along_q, rmap_bind, bind_map. apply bind_same. intros low.
    rewrite rmap_bind, bind_map. apply bind_same. intros full.
    cbn [scp pt_q nsub RNum]. unfold sc at 1 2 3.
    replace (k * pt_q E - k * low) with (k * (pt_q E - low)) by ring.
    replace (k * full - k * low) with (k * (full - low)) by ring.
    rewrite div_both, bind_map. apply bind_same. intros n. cbn [rmap rbind]. unfold sc.
    cbn [nadd nsub nmul ndiv RNum]. f_equal. unfold Rdiv. ring.
  Qed.
  Lemma slope_p A B Bl Fl E :
    seer_slope pt_p (scp A) (scp B) (scp Bl) (scp Fl) (scp E)
    = rmap sc (seer_slope pt_p A B Bl Fl E).
  Proof.
    unfold seer_slope. rewrite !along_p, rmap_bind, bind_map. apply bind_same. intros low.
    rewrite rmap_bind, bind_map. apply bind_same. intros full.
    cbn [scp pt_p nsub RNum]. unfold sc at 1 2 3.
    replace (k * pt_p E - k * low) with (k * (pt_p E - low)) by ring.
    replace (k * full - k * low) with (k * (full - low)) by ring.
    rewrite div_both, bind_map. apply bind_same. intros n. cbn [rmap rbind]. unfold sc.
    cbn [nadd nsub nmul ndiv RNum]. f_equal. unfold Rdiv. ring.
  Qed.

  Lemma scaled_rmap r r' : scaled k r r' -> r' = rmap sc r.
  Proof.
    destruct r, r'; simpl; intros H; try contradiction; unfold sc; congruence.
  Qed.
  Lemma scaled_point cap pow cap' pow' u u' get :
    scaled_test k cap pow cap' pow' u u' get ->
    test_point cap' pow' get u' = rmap scp (test_point cap pow get u).
  Proof.
    unfold scaled_test, test_point, rating.
    destruct (get (u_conds u)) as [c|], (get (u_conds u')) as [c'|]; try contradiction.
    - intros (T & Q & P). cbn [need rbind]. apply scaled_rmap in Q. apply scaled_rmap in P.
      rewrite Q, P, rmap_bind, bind_map. apply bind_same. intros q.
      rewrite rmap_bind, bind_map. apply bind_same. intros p. cbn [rmap rbind].
      rewrite T. reflexivity.
    - reflexivity.
  Qed.
End Scale.

Section SeerScale.
  Variables (k : R) (sol sol' : solvers R) (M M' : dxmodel R) (u u' : dxunit R).
  Hypothesis K : 0 < k.

  Lemma seer_scale :
    u_staging u' = u_staging u -> u_cycling u' = u_cycling u ->
    sd_cd (u_c u') = sd_cd (u_c u) ->
    scaled_cooling k sol M u sol' M' u' ->
    seer sol' M' u' = seer sol M u.
  Proof.
    intros S C D H. unfold scaled_cooling in H.
    inversion H as [|? ? HA H1]; subst. inversion H1 as [|? ? HB H2]; subst.
    inversion H2 as [|? ? HBl H3]; subst. inversion H3 as [|? ? HFl H4]; subst.
    inversion H4 as [|? ? HE _]; subst. clear H H1 H2 H3 H4.
    unfold seer. rewrite S, C, D. f_equal.
    destruct (u_staging u).
    - unfold scaled_test in HB. unfold rating.
      destruct (rc_B_full (u_conds u)) as [c|], (rc_B_full (u_conds u')) as [c'|];
        try contradiction; [|reflexivity].
      cbn [need rbind]. f_equal. destruct HB as (_ & Q & P).
      apply scaled_rmap in Q. apply scaled_rmap in P.
      unfold net_total_cooling_cop, both. rewrite Q, P, rmap_bind. apply bind_same.
      intros q. rewrite rmap_bind. apply bind_same. intros p. unfold sc. apply div_both, K.
    - apply scaled_point in HA. apply scaled_point in HB.
      apply scaled_point in HBl. apply scaled_point in HFl.
      unfold cooling_point. rewrite HA, HB, HBl, HFl.
      rewrite rmap_bind. apply bind_same. intros A.
      rewrite rmap_bind. apply bind_same. intros B.
      rewrite rmap_bind. apply bind_same. intros Bl.
      rewrite rmap_bind. apply bind_same. intros Fl.
      rewrite (sums_sc k K (fun _ bl ql pl qf pf n =>
        seer_bin_two (u_cycling u) (sd_cd (u_c u)) bl ql pl qf pf n)), rmap_bind
        by (intros; apply bin_two_sc, K).
      apply bind_same. intros qe. unfold sc2. cbn [fst snd]. apply div_both, K.
    - apply scaled_point in HA. apply scaled_point in HB.
      apply scaled_point in HBl. apply scaled_point in HFl.
      apply scaled_point in HE.
      unfold cooling_point. rewrite HA, HB, HBl, HFl, HE.
      rewrite rmap_bind. apply bind_same. intros A.
      rewrite rmap_bind. apply bind_same. intros B.
      rewrite rmap_bind. apply bind_same. intros Bl.
      rewrite rmap_bind. apply bind_same. intros Fl.
      rewrite rmap_bind.
      match goal with |- rbind ?a _ = rbind ?b _ => assert (G : a = rmap (sc2 k) b) end.
      { rewrite bind_map. apply bind_same. intros E.
        rewrite (slope_q k K), rmap_bind, bind_map. apply bind_same. intros mq.
        rewrite (slope_p k K), rmap_bind, bind_map. apply bind_same. intros mp.
        apply (sums_sc k K). intros t bl ql pl qf pf n. unfold sc. cbn [scp pt_q pt_p].
        rewrite <- (bin_variable_sc k K). cbn [nadd nsub nmul RNum]. f_equal; ring. }
      rewrite G, rmap_bind. apply bind_same. intros qe. unfold sc2. cbn [fst snd].
      apply div_both, K.
  Qed.
End SeerScale.

Section HspfScale.
  Variables (k : R) (sol sol' : solvers R) (M M' : dxmodel R) (u u' : dxunit R).
  Hypothesis K : 0 < k.
  Hypothesis Staging : u_staging u' = u_staging u.
  Hypothesis Cycling : u_cycling u' = u_cycling u.
  Hypothesis Cd : sd_cd (u_h u') = sd_cd (u_h u).
  Hypothesis Off : u_heating_off u' = u_heating_off u.
  Hypothesis On : u_heating_on u' = u_heating_on u.

  Definition sca (a : hspf_acc (T:=R)) : hspf_acc :=
    mkAcc (k * h_q a) (k * h_e a) (k * h_rh a) (h_delta_low a).
  Definition scb (r : R * R * option R) : R * R * option R :=
    let '(e, rh, dl) := r in (k * e, k * rh, dl).

  Lemma cut_same t cop : cut_out u' t cop = cut_out u t cop.
  Proof. unfold cut_out. rewrite Off, On. reflexivity. Qed.

  Lemma low_sc bl t ql pl n :
    hspf_low u' (k * bl) t (k * ql) (k * pl) n = rmap scb (hspf_low u bl t ql pl n).
  Proof.
    unfold hspf_low. rewrite (div_both k K), Cd, bind_map. apply bind_same. intros cop.
    rewrite cut_same, bind_map. apply bind_same. intros d.
    rewrite (div_both k K), bind_map. apply bind_same. intros h.
    cbn [nmul RNum]. replace (k * pl * h * d * n) with (k * (pl * h * d * n)) by ring.
    rewrite (div_top k), rmap_bind, bind_map. apply bind_same. intros e.
    cbn [rmap rbind scb]. unfold sc. do 2 f_equal. f_equal. ring.
  Qed.

  Lemma single_sc bl t qf pf df hlf n dl :
    hspf_bin_single u' (k * bl) t (k * qf) (k * pf) df hlf n dl
    = rmap scb (hspf_bin_single u bl t qf pf df hlf n dl).
  Proof.
    unfold hspf_bin_single. rewrite Cd. cbn [nmul RNum].
    replace (k * pf * hlf * df * n) with (k * (pf * hlf * df * n)) by ring.
    rewrite (div_top k), rmap_bind, bind_map. apply bind_same. intros e.
    cbn [rmap rbind scb]. unfold sc. cbn [nsub nmul RNum]. do 2 f_equal. f_equal. ring.
  Qed.

  Lemma two_sc bl t ql pl qf pf df hlf n dl :
    hspf_bin_two u' (k * bl) t (k * ql) (k * pl) (k * qf) (k * pf) df hlf n dl
    = rmap scb (hspf_bin_two u bl t ql pl qf pf df hlf n dl).
  Proof.
    unfold hspf_bin_two. rewrite (div_both k K), bind_map. apply bind_same. intros _.
    cbn [nleb nltb RNum]. rewrite (sc_leb k K), (sc_ltb k K), Cd, Cycling.
    destruct (Rleb bl ql); [apply low_sc|]. destruct (Rltb bl qf).
    - cbn [nsub RNum]. replace (k * qf - k * bl) with (k * (qf - bl)) by ring.
      replace (k * qf - k * ql) with (k * (qf - ql)) by ring.
      rewrite (div_both k K), bind_map. apply bind_same. intros low.
      destruct (u_cycling u).
      + rewrite bind_map. apply bind_same. intros d. cbn [rmap rbind scb].
        cbn [nadd nsub nmul RNum]. f_equal. f_equal. f_equal; ring.
      + cbn [nmul RNum].
        replace (k * pf * hlf * df * n) with (k * (pf * hlf * df * n)) by ring.
        rewrite (div_top k), rmap_bind, bind_map. apply bind_same. intros e.
        rewrite bind_map. apply bind_same. intros d. cbn [rmap rbind scb].
        cbn [nadd nsub nmul RNum]. unfold sc. f_equal. f_equal. f_equal; ring.
    - cbn [rmap rbind scb nadd nsub nmul RNum]. f_equal. f_equal. f_equal; ring.
  Qed.

  Lemma variable_sc bl t ql pl qi pi qf pf q4 p4 df n dl :
    hspf_bin_variable u' (k * bl) t (k * ql) (k * pl) (k * qi) (k * pi) (k * qf) (k * pf)
      (k * q4) (k * p4) df n dl
    = rmap scb (hspf_bin_variable u bl t ql pl qi pi qf pf q4 p4 df n dl).
  Proof.
    unfold hspf_bin_variable. rewrite !(div_both k K).
    rewrite bind_map. apply bind_same. intros cl.
    rewrite bind_map. apply bind_same. intros ci.
    rewrite bind_map. apply bind_same. intros cf.
    cbn [nleb nltb RNum]. rewrite !(sc_leb k K), (sc_ltb k K).
    destruct (Rleb bl ql); [apply low_sc|]. destruct (Rltb bl qf).
    - rewrite bind_map.
      match goal with |- rbind ?a _ = rbind ?b _ => assert (G : a = b) end.
      { cbn [nadd nsub nmul RNum]. destruct (Rleb bl qi).
        - replace (k * qi - k * ql) with (k * (qi - ql)) by ring.
          rewrite (div_bottom k K), rmap_bind. apply bind_same. intros s. f_equal. field. lra.
        - replace (k * qf - k * qi) with (k * (qf - qi)) by ring.
          rewrite (div_bottom k K), rmap_bind. apply bind_same. intros s. f_equal. field. lra. }
      rewrite G. apply bind_same. intros cop. rewrite cut_same, bind_map. apply bind_same.
      intros d. cbn [nmul RNum]. rewrite (Rmult_assoc k bl n), (div_top k), rmap_bind, bind_map.
      apply bind_same. intros e. cbn [rmap rbind scb nsub nmul RNum]. unfold sc.
      f_equal. f_equal. f_equal; ring.
    - cbn [rmap rbind scb nadd nsub nmul RNum]. f_equal. f_equal. f_equal; ring.
  Qed.

  Lemma hslope_q H0 H1l H2i H2 H3 :
    hspf_slope pt_q (scp k H0) (scp k H1l) (scp k H2i) (scp k H2) (scp k H3)
    = rmap (sc k) (hspf_slope pt_q H0 H1l H2i H2 H3).
  Proof.
    unfold hspf_slope. rewrite !along_q, rmap_bind, bind_map. apply bind_same. intros low.
    cbn [scp pt_q nsub RNum]. unfold sc at 1 2.
    replace (k * pt_q H2i - k * low) with (k * (pt_q H2i - low)) by ring.
    replace (k * pt_q H2 - k * low) with (k * (pt_q H2 - low)) by ring.
    rewrite (div_both k K), bind_map. apply bind_same. intros n. cbn [rmap rbind]. unfold sc.
    cbn [nadd nsub nmul ndiv RNum]. f_equal. unfold Rdiv. ring.
  Qed.
  Lemma hslope_p H0 H1l H2i H2 H3 :
    hspf_slope pt_p (scp k H0) (scp k H1l) (scp k H2i) (scp k H2) (scp k H3)
    = rmap (sc k) (hspf_slope pt_p H0 H1l H2i H2 H3).
  Proof.
    unfold hspf_slope. rewrite !along_p, rmap_bind, bind_map. apply bind_same. intros low.
    cbn [scp pt_p nsub RNum]. unfold sc at 1 2.
    replace (k * pt_p H2i - k * low) with (k * (pt_p H2i - low)) by ring.
    replace (k * pt_p H2 - k * low) with (k * (pt_p H2 - low)) by ring.
    rewrite (div_both k K), bind_map. apply bind_same. intros n. cbn [rmap rbind]. unfold sc.
    cbn [nadd nsub nmul ndiv RNum]. f_equal. unfold Rdiv. ring.
  Qed.

  Lemma full_q H1 H2 H3 t :
    hspf_full pt_q (scp k H1) (scp k H2) (scp k H3) t = rmap (sc k) (hspf_full pt_q H1 H2 H3 t).
  Proof. unfold hspf_full. destruct orb; apply along_q. Qed.
  Lemma full_p H1 H2 H3 t :
    hspf_full pt_p (scp k H1) (scp k H2) (scp k H3) t = rmap (sc k) (hspf_full pt_p H1 H2 H3 t).
  Proof. unfold hspf_full. destruct orb; apply along_p. Qed.
  Lemma two_low_q H0 H1 H2 H3 t :
    hspf_two_low pt_q (scp k H0) (scp k H1) (scp k H2) (scp k H3) t
    = rmap (sc k) (hspf_two_low pt_q H0 H1 H2 H3 t).
  Proof. unfold hspf_two_low. destruct nleb; [|destruct nleb]; apply along_q. Qed.
  Lemma two_low_p H0 H1 H2 H3 t :
    hspf_two_low pt_p (scp k H0) (scp k H1) (scp k H2) (scp k H3) t
    = rmap (sc k) (hspf_two_low pt_p H0 H1 H2 H3 t).
  Proof. unfold hspf_two_low. destruct nleb; [|destruct nleb]; apply along_p. Qed.

  Lemma hload_sc num den c q : heating_load num den c (k * q) = rmap (sc k) (heating_load num den c q).
  Proof.
    unfold heating_load. rewrite bind_map. apply bind_same. intros r. cbn [rmap rbind].
    unfold pymax. rewrite lit0_R. cbn [nltb nmul RNum].
    replace (r * c * (k * q)) with (k * (r * c * q)) by ring.
    rewrite <- (Rmult_0_r k) at 1. rewrite (sc_ltb k K). unfold sc.
    destruct (Rltb (r * c * q) 0); [rewrite Rmult_0_r|]; reflexivity.
  Qed.

  Lemma hsums_sc d load load' H1 H2 H3 bin bin' :
    (forall t, load' t = rmap (sc k) (load t)) ->
    (forall bl t qf pf df hlf n dl,
       bin' (k * bl) t (k * qf) (k * pf) df hlf n dl = rmap scb (bin bl t qf pf df hlf n dl)) ->
    hspf_sums u' d load' (scp k H1) (scp k H2) (scp k H3) bin'
    = rmap sca (hspf_sums u d load H1 H2 H3 bin).
  Proof.
    intros L B. unfold hspf_sums.
    replace (mkAcc (lit 0) (lit 0) (lit 0) None)
      with (sca (mkAcc (lit 0) (lit 0) (lit 0) None)) at 1
      by (unfold sca; cbn [h_q h_e h_rh h_delta_low]; rewrite lit0_R, Rmult_0_r; reflexivity).
    apply rfold_map. intros a [t n].
    rewrite L, rmap_bind, bind_map. apply bind_same. intros bl.
    rewrite full_q, rmap_bind, bind_map. apply bind_same. intros qf.
    rewrite full_p, rmap_bind, bind_map. apply bind_same. intros pf.
    unfold sc. rewrite (div_both k K), bind_map. apply bind_same. intros cop.
    rewrite cut_same, bind_map. apply bind_same. intros df.
    cbn [nltb RNum]. rewrite (sc_ltb k K), (div_both k K), bind_map. apply bind_same.
    intros hlf. cbn [sca h_delta_low]. rewrite B, rmap_bind, bind_map. apply bind_same.
    intros [[e rh] dl]. cbn [scb rmap rbind]. unfold sca. cbn [h_q h_e h_rh h_delta_low].
    cbn [nadd nmul RNum]. f_equal. f_equal; ring.
  Qed.

  Lemma hspf_scale region :
    u_standard u = AHRI_210_240_2023 -> u_standard u' = AHRI_210_240_2023 ->
    demand_credit (u_defrost u') = demand_credit (u_defrost u) ->
    scaled_test k (net_total_cooling_capacity sol M) (net_cooling_power sol M)
      (net_total_cooling_capacity sol' M') (net_cooling_power sol' M') u u' rc_A_full ->
    scaled_heating k sol M u sol' M' u' ->
    hspf sol' M' u' region = hspf sol M u region.
  Proof.
    intros S S' Cr HA [HS HF].
    inversion HS as [|? ? H1 G1]; subst. inversion G1 as [|? ? H3 G2]; subst.
    inversion G2 as [|? ? H0l G3]; subst. inversion G3 as [|? ? H1l G4]; subst.
    inversion G4 as [|? ? H3l G5]; subst. inversion G5 as [|? ? H4 _]; subst.
    inversion HF as [|? ? H2 F1]; subst. inversion F1 as [|? ? H2l F2]; subst.
    inversion F2 as [|? ? H2i _]; subst. clear HS HF G1 G2 G3 G4 G5 F1 F2.
    apply scaled_point in H1. apply scaled_point in H3. apply scaled_point in H0l.
    apply scaled_point in H1l. apply scaled_point in H3l. apply scaled_point in H4.
    apply scaled_point in H2. apply scaled_point in H2l. apply scaled_point in H2i.
    unfold hspf. rewrite S, S'. apply bind_same. intros d. unfold hspf_with.
    unfold heating_point, frost_point.
    rewrite H1, rmap_bind. apply bind_same. intros P1.
    rewrite H2, rmap_bind. apply bind_same. intros P2.
    rewrite H3, rmap_bind. apply bind_same. intros P3.
    unfold hspf_load. rewrite S, S', Staging.
    set (c := match u_staging u with VARIABLE_SPEED => hd_c_vs d | _ => hd_c d end).
    destruct c as [c|]; [cbn [need rbind]|reflexivity].
    destruct (hd_zero_load d) as [zl|]; [cbn [need rbind]|reflexivity].
    unfold scaled_test in HA. unfold rating.
    destruct (rc_A_full (u_conds u)) as [cA|], (rc_A_full (u_conds u')) as [cA'|];
      try contradiction; [cbn [need rbind]|reflexivity].
    destruct HA as (_ & HA & _). apply scaled_rmap in HA. rewrite HA.
    destruct (net_total_cooling_capacity sol M u (Some cA)) as [q|e]; [|reflexivity].
    cbn [rmap rbind]. rewrite Cr.
    set (load := fun t => heating_load (nsub zl t) (nsub zl (hd_design d)) c q).
    set (load' := fun t => heating_load (nsub zl t) (nsub zl (hd_design d)) c (sc k q)).
    assert (L : forall t, load' t = rmap (sc k) (load t)).
    { intros t. unfold load, load'. apply hload_sc. }
    match goal with |- rbind ?a _ = rbind ?b _ => assert (G : a = rmap sca b) end.
    { destruct (u_staging u).
      - apply hsums_sc; [exact L|]. intros. apply single_sc.
      - rewrite H0l, rmap_bind, bind_map. apply bind_same. intros Q0.
        rewrite H1l, rmap_bind, bind_map. apply bind_same. intros Q1.
        rewrite H2l, rmap_bind, bind_map. apply bind_same. intros Q2.
        rewrite H3l, rmap_bind, bind_map. apply bind_same. intros Q3.
        apply hsums_sc; [exact L|]. intros.
        rewrite two_low_q, rmap_bind, bind_map. apply bind_same. intros ql.
        rewrite two_low_p, rmap_bind, bind_map. apply bind_same. intros pl.
        apply two_sc.
      - rewrite H0l, rmap_bind, bind_map. apply bind_same. intros Q0.
        rewrite H1l, rmap_bind, bind_map. apply bind_same. intros Q1.
        rewrite H2i, rmap_bind, bind_map. apply bind_same. intros Q2.
        rewrite H4, rmap_bind, bind_map. apply bind_same. intros Q4.
        rewrite hslope_q, rmap_bind, bind_map. apply bind_same. intros mq.
        rewrite hslope_p, rmap_bind, bind_map. apply bind_same. intros mp.
        apply hsums_sc; [exact L|]. intros.
        rewrite !along_q, rmap_bind, bind_map. apply bind_same. intros ql.
        rewrite !along_p, rmap_bind, bind_map. apply bind_same. intros pl.
        rewrite rmap_bind, bind_map. apply bind_same. intros q4.
        rewrite rmap_bind, bind_map. apply bind_same. intros p4.
        rewrite <- variable_sc. cbn [scp pt_q pt_p]. unfold sc.
        cbn [nadd nsub nmul RNum]. f_equal; ring. }
    rewrite G, rmap_bind. apply bind_same. intros s. apply bind_same. intros cr.
    unfold sca. cbn [h_q h_e h_rh nadd RNum].
    replace (k * h_e s + k * h_rh s) with (k * (h_e s + h_rh s)) by ring.
    rewrite (div_both k K). reflexivity.
  Qed.
End HspfScale.
