(** Properties C04-C06: PsychState (psychrometrics.py). *)
From Coq Require Import Reals Lra List String.
From Verif.Base Require Import Num Res Tac.
From Verif.Model Require Import Units Psychrometrics.
From Verif.Spec Require Import PsychSpec.
From Verif.Proofs Require Import PsychProofs.
Import ListNotations.
Local Open Scope R_scope.

(** A toy psychrometric library for the examples: every function returns a
    constant; the humidity ratio and the relative humidity differ. *)
Definition toy_psy : psychro R := {|
  GetHumRatioFromTWetBulb := fun _ _ _ => Ok 0.01;
  GetTWetBulbFromHumRatio := fun _ _ _ => Ok 15;
  GetTWetBulbFromRelHum := fun _ _ _ => Ok 16;
  GetMoistAirEnthalpy := fun _ _ => Ok 50000;
  GetHumRatioFromEnthalpyAndTDryBulb := fun _ _ => Ok 0.012;
  GetMoistAirDensity := fun _ _ _ => Ok 1.2;
  GetSatHumRatio := fun _ _ => Ok 0.02;
  GetSatAirEnthalpy := fun _ _ => Ok 60000;
  GetTDryBulbFromEnthalpyAndHumRatio := fun _ _ => Ok 20;
  GetRelHumFromTWetBulb := fun _ _ _ => Ok 0.5;
  GetHumRatioFromRelHum := fun _ _ _ => Ok 0.01
|}.

Theorem C04_ok_only_with_one_known_keyword : forall psy db p kwargs s,
  PsychState psy db p kwargs = Ok s ->
  exists k v, kwargs = [(k, v)] /\ In k humidity_keywords.
Proof. exact PsychState_ok_kw. Qed.
Print Assumptions C04_ok_only_with_one_known_keyword.

Theorem C04_other_keywords_raise : forall psy db p kwargs,
  ~ (exists k v, kwargs = [(k, v)] /\ In k humidity_keywords) ->
  PsychState psy db p kwargs = Err RuntimeError.
Proof. exact PsychState_bad_kw. Qed.
Print Assumptions C04_other_keywords_raise.

Theorem C04_wet_bulb_always_readable : forall psy db p kwargs s hist,
  PsychState psy db p kwargs = Ok s ->
  exists w, snd (read_attr psy A_wb (after_reads psy hist s)) = Ok w
         /\ snd (read_attr psy A_wb_C (after_reads psy hist s)) = Ok (w - 273.15).
Proof. exact PsychState_wb_readable. Qed.
Print Assumptions C04_wet_bulb_always_readable.

Theorem C04_reads_back_constructor_argument : forall psy db p k v s hist,
  PsychState psy db p [(k, v)] = Ok s ->
  exists a, keyword_attr k = Some a /\
    snd (read_attr psy a (after_reads psy hist s)) = Ok v.
Proof. exact PsychState_reads_back_hist. Qed.
Print Assumptions C04_reads_back_constructor_argument.

Example C04_nonvacuous :
  exists s, PsychState toy_psy 300 101325 [("enthalpy"%string, 50000)] = Ok s.
Proof. eexists. reflexivity. Qed.
Example C04_nonvacuous_error :
  PsychState toy_psy 300 101325 [("wetbulb"%string, 290); ("hum_rat"%string, 0.01)]
  = Err RuntimeError.
Proof. reflexivity. Qed.

Theorem C05_reads_are_history_free : forall psy db p kwargs s hist a,
  PsychState psy db p kwargs = Ok s ->
  snd (read_attr psy a (after_reads psy hist s)) = snd (read_attr psy a s).
Proof. exact PsychState_read_history_free. Qed.
Print Assumptions C05_reads_are_history_free.

(** The history [rho; h; rh] fills all caches. *)
Example C05_nonvacuous :
  exists s, PsychState toy_psy 300 101325 [("wetbulb"%string, 290)] = Ok s
    /\ ps_h s = None
    /\ ps_h (after_reads toy_psy [A_rho; A_h; A_rh] s) = Some 50000.
Proof. eexists. repeat split. Qed.

(** The intended property fails: for every state not built from [rel_hum],
    reading [rh] returns the humidity *ratio* at its wet bulb ... *)
Theorem C06_rh_returns_humidity_ratio_refuted : forall psy db p k v s,
  PsychState psy db p [(k, v)] = Ok s -> k <> "rel_hum"%string ->
  exists w, wb_of s = Ok w /\
    rh_of psy s = GetHumRatioFromTWetBulb psy (to_C db) (to_C w) p.
Proof. exact rh_is_humidity_ratio. Qed.
Print Assumptions C06_rh_returns_humidity_ratio_refuted.

(** ... which is not the relative humidity. *)
Example C06_rh_wrong :
  exists s, PsychState toy_psy 300 101325 [("wetbulb"%string, 290)] = Ok s
    /\ rh_of toy_psy s = Ok 0.01
    /\ GetRelHumFromTWetBulb toy_psy (to_C 300) (to_C 290) 101325 = Ok 0.5.
Proof. eexists. repeat split. Qed.

Theorem C06_wb_assignment_leaves_hr_stale_refuted : forall psy s w v,
  ps_hr s = Some v ->
  hr_of psy (fst (set_wb w s)) = Ok v /\ wb_of (fst (set_wb w s)) = Ok w.
Proof. exact wb_assignment_leaves_hr. Qed.
Print Assumptions C06_wb_assignment_leaves_hr_stale_refuted.

Example C06_nonvacuous :
  exists s, PsychState toy_psy 300 101325 [("hum_rat"%string, 0.012)] = Ok s
    /\ ps_hr s = Some 0.012.
Proof. eexists. repeat split. Qed.
