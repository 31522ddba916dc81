(** Comparing two units of the same capacity (C86). *)
From Coq Require Import Reals List.
From Verif.Base Require Import Res.
From Verif.Model Require Import Psychrometrics Conditions Defrost Fan Unit DXUnit.
From Verif.Spec Require Import UtilSpec UnitSpec SeasonSpec.
Local Open Scope R_scope.

(** Tests at the same outdoor temperature with the same net capacity. *)
Definition same_capacity (P P' : point R) : Prop := pt_t P' = pt_t P /\ pt_q P' = pt_q P.
Definition same_stages (s s' : stage_tests) : Prop :=
  same_capacity (s_H0l s) (s_H0l s') /\ same_capacity (s_H1l s) (s_H1l s')
  /\ same_capacity (s_H2l s) (s_H2l s') /\ same_capacity (s_H3l s) (s_H3l s')
  /\ same_capacity (s_H1 s) (s_H1 s') /\ same_capacity (s_H2 s) (s_H2 s')
  /\ same_capacity (s_H3 s) (s_H3 s').

(** The cooling tests of a two-stage unit, the heating tests of the three kinds of unit. *)
Definition cooling_tests (sol : solvers R) (M : dxmodel R) (u : dxunit R)
    (A B Bl Fl : point R) : Prop :=
  cooling_test sol M u (rc_A_full (u_conds u)) A
  /\ cooling_test sol M u (rc_B_full (u_conds u)) B
  /\ cooling_test sol M u (rc_B_low (u_conds u)) Bl
  /\ cooling_test sol M u (rc_F_low (u_conds u)) Fl.
Definition single_tests (sol : solvers R) (M : dxmodel R) (u : dxunit R)
    (H1 H2 H3 : point R) : Prop :=
  heating_test sol M u (rc_H1_full (u_conds u)) H1
  /\ frost_test sol M u (rc_H2_full (u_conds u)) H2
  /\ heating_test sol M u (rc_H3_full (u_conds u)) H3.
Definition two_stage_tests (sol : solvers R) (M : dxmodel R) (u : dxunit R)
    (s : stage_tests) : Prop :=
  heating_test sol M u (rc_H0_low (u_conds u)) (s_H0l s)
  /\ heating_test sol M u (rc_H1_low (u_conds u)) (s_H1l s)
  /\ frost_test sol M u (rc_H2_low (u_conds u)) (s_H2l s)
  /\ heating_test sol M u (rc_H3_low (u_conds u)) (s_H3l s)
  /\ single_tests sol M u (s_H1 s) (s_H2 s) (s_H3 s).
Definition variable_tests (sol : solvers R) (M : dxmodel R) (u : dxunit R)
    (H0l H1l H2i H1 H2 H3 H4 : point R) : Prop :=
  heating_test sol M u (rc_H0_low (u_conds u)) H0l
  /\ heating_test sol M u (rc_H1_low (u_conds u)) H1l
  /\ frost_test sol M u (rc_H2_int (u_conds u)) H2i
  /\ single_tests sol M u H1 H2 H3
  /\ heating_test sol M u (rc_H4_full (u_conds u)) H4.

(** The building, climate and defrost credit under which a unit is rated for heating. *)
Definition rated_in (sol : solvers R) (M : dxmodel R) (u : dxunit R) (region : nat)
    (d : heating_distribution R) (L : R -> R) (credit : R) : Prop :=
  climate u region = Ok d /\ heat_load sol M u d L
  /\ demand_credit (u_defrost u) = Ok credit.

(** The second unit cuts out and in at temperatures not above those of the first and loses
    no more to cycling. *)
Definition runs_as_often (u u' : dxunit R) (on on' : R) : Prop :=
  u_heating_on u = Some on /\ u_heating_on u' = Some on'
  /\ u_heating_off u' <= u_heating_off u /\ on' <= on
  /\ 0 <= sd_cd (u_h u') <= sd_cd (u_h u) /\ sd_cd (u_h u) < 1.
