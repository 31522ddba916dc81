(** The cycling method of two-stage units (C97). *)
From Coq Require Import Reals List.
From Verif.Base Require Import Res.
From Verif.Model Require Import Psychrometrics Conditions Defrost Fan Unit DXUnit.
From Verif.Spec Require Import UtilSpec UnitSpec SeasonSpec.
Local Open Scope R_scope.

(** The same arguments, and the same unit, with another cycling method. *)
Definition with_cycling (c : cycling_method) (a : dxargs R) : dxargs R :=
  mkArgs (a_staging a) (a_ccap a) (a_gross_ccop a) (a_net_ccop a) (a_cflow a) (a_cd_c a) (a_cooling_off a)
    (a_hcap a) (a_gross_hcop a) (a_net_hcop a) (a_hflow a) (a_cd_h a) (a_heating_off a) (a_heating_on a)
    (a_defrost a) (a_fan a) (a_hfan_speed a) (a_cfan_speed a) (a_rated_hfan_speed a) (a_rated_cfan_speed a)
    (a_crank a) (a_crank_setpoint a) (a_charge a) c (a_cfull a) (a_cint a) (a_hfull a) (a_hint a)
    (a_ducted a) (a_standard a) (a_seer a) (a_eer a) (a_hspf a) (a_kwargs a).
Definition cycled (c : cycling_method) (u : dxunit R) : dxunit R :=
  mkUnit (u_kwargs u) (u_seer u) (u_eer u) (u_hspf u) (u_hcop u) c (u_ducted u) (u_cooling_off u)
    (u_defrost u) (u_crank_setpoint u) (u_standard u) (u_charge u) (u_staging u) (u_heating_off u)
    (u_heating_on u) (u_c u) (u_h u) (u_shr u) (u_bf u) (u_ntu u) (u_full_esp u) (u_fan u) (u_crank u)
    (u_conds u) (u_rn u).

(** How far a load lies between the capacities of the two stages: 0 at the low stage, 1 at the
    full stage. *)
Definition between (ql qf bl : R) : R := (bl - ql) / (qf - ql).

(** * Heat from the compressor in bin [i] (C46) *)
(** Two stages: the load for the running part of the bin, at most the full-stage capacity. *)
Definition two_stage_delivered (off on : R) (L : R -> R) (s : stage_tests) (i : nat) : R :=
  if Rle_dec (L (heat_t i)) (low_of q_at s i) then low_run off on s i * L (heat_t i)
  else if Rlt_dec (L (heat_t i)) (full_of q_at s i)
  then match carried off on L s i with Some x => x | None => 0 end * L (heat_t i)
  else full_run off on s i * full_of q_at s i.

(** Variable speed: beyond the full-speed capacity, that on the line through the H4 and H3 tests. *)
Definition variable_delivered (off on : R) (L : R -> R) (H0l H1l H2i H1 H2 H3 H4 : point R) (i : nat) : R :=
  run_fraction off on (heat_t i) (variable_cop L H0l H1l H2i H1 H2 H3 i)
  * (if Rle_dec (L (heat_t i)) (q_at H0l H1l (heat_t i)) then L (heat_t i)
     else if Rlt_dec (L (heat_t i)) (full_line q_at H1 H2 H3 (heat_t i)) then L (heat_t i)
     else q_at H4 H3 (heat_t i)).
