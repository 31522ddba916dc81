(** Arguments of a constructor (C83, C84, C85). *)
From Coq Require Import Reals List String.
From Verif.Base Require Import Num Res.
From Verif.Model Require Import Units Psychrometrics Conditions Defrost Fan Tabular Unit DXUnit.
Import ListNotations.
Local Open Scope R_scope.

(** A list of capacities rather than one. *)
Definition is_list {A} (o : num_or_list A) : bool := match o with Many _ => true | _ => false end.

(** The same arguments, with a table passed as [tabular_data]. *)
Definition with_table (p : perf R) (a : dxargs R) : dxargs R :=
    mkArgs (a_staging a) (a_ccap a) (a_gross_ccop a) (a_net_ccop a) (a_cflow a) (a_cd_c a) (a_cooling_off a)
    (a_hcap a) (a_gross_hcop a) (a_net_hcop a) (a_hflow a) (a_cd_h a) (a_heating_off a) (a_heating_on a)
    (a_defrost a) (a_fan a) (a_hfan_speed a) (a_cfan_speed a) (a_rated_hfan_speed a) (a_rated_cfan_speed a)
    (a_crank a) (a_crank_setpoint a) (a_charge a) (a_cycling a) (a_cfull a) (a_cint a) (a_hfull a) (a_hint a)
    (a_ducted a) (a_standard a) (a_seer a) (a_eer a) (a_hspf a)     (("tabular_data"%string, KTable p) ::
    a_kwargs a).

(** The same unit, remembering the arguments it was given. *)
Definition remembering (kw : list (string * kwval R)) (u : dxunit R) : dxunit R :=
  mkUnit kw (u_seer u) (u_eer u) (u_hspf u) (u_hcop u) (u_cycling u) (u_ducted u) (u_cooling_off u) (u_defrost u)
    (u_crank_setpoint u) (u_standard u) (u_charge u) (u_staging u) (u_heating_off u) (u_heating_on u) (u_c u) (u_h u)
    (u_shr u) (u_bf u) (u_ntu u) (u_full_esp u) (u_fan u) (u_crank u) (u_conds u) (u_rn u).

(** The same arguments, with other ratings and COPs: SEER, EER, HSPF, net and gross cooling
    COP, net and gross heating COP. *)
Definition with_efficiency (s e h : option R) (nc gc nh gh : option (num_or_list R)) (a : dxargs R) : dxargs R :=
  mkArgs (a_staging a) (a_ccap a) gc nc (a_cflow a) (a_cd_c a) (a_cooling_off a) (a_hcap a) gh nh (a_hflow a)
    (a_cd_h a) (a_heating_off a) (a_heating_on a) (a_defrost a) (a_fan a) (a_hfan_speed a) (a_cfan_speed a)
    (a_rated_hfan_speed a) (a_rated_cfan_speed a) (a_crank a) (a_crank_setpoint a) (a_charge a) (a_cycling a)
    (a_cfull a) (a_cint a) (a_hfull a) (a_hint a) (a_ducted a) (a_standard a) s e h (a_kwargs a).

(** The same unit, remembering other ratings. *)
Definition rated_as (s e h : option R) (c : option (num_or_list R)) (u : dxunit R) : dxunit R :=
  mkUnit (u_kwargs u) s e h c (u_cycling u) (u_ducted u) (u_cooling_off u) (u_defrost u) (u_crank_setpoint u)
    (u_standard u) (u_charge u) (u_staging u) (u_heating_off u) (u_heating_on u) (u_c u) (u_h u) (u_shr u)
    (u_bf u) (u_ntu u) (u_full_esp u) (u_fan u) (u_crank u) (u_conds u) (u_rn u).
