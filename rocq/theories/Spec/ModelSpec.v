(** Specifications for the defrost derates, the Title 24 defaults and the RESNET
    tables (C32-C35, C57). *)
From Coq Require Import Reals List String.
From Verif.Base Require Import Num Res.
From Verif.Model Require Import Units Psychrometrics Conditions Defrost Fan Tabular Unit
  Title24.
From Verif.Spec Require Import NrelSpec.
Import ListNotations.
Local Open Scope R_scope.

(** The Carrier defrost fraction at an outdoor temperature in Fahrenheit. *)
Definition carrier_fraction (t : R) : R :=
  if Rle_dec t (-20) then 0.075
  else if Rle_dec t 17 then 0.075 + 0.01 * (t + 20) / 37
  else if Rle_dec t 27 then 0.085 + 0.0025 * (t - 17)
  else if Rle_dec t 37 then 0.11 - 0.002 * (t - 27)
  else 0.09.

(** The RESNET defrost fraction at an outdoor temperature in Fahrenheit. *)
Definition resnet_fraction (t : R) : R := Rmax (Rmin (0.134 - 0.003 * t) 0.08) 0.

(** A list given under [key] when the unit was built; its entry [i] is [x]. *)
Definition supplied (u : dxunit R) (key : string) (i : nat) (x : R) : Prop :=
  exists l, find (fun e => String.eqb key (fst e)) (u_kwargs u) = Some (key, KList l)
            /\ nth_error l i = Some x.
Definition not_supplied (u : dxunit R) (key : string) : Prop :=
  forall v, ~ In (key, v) (u_kwargs u).

(** Title 24 ratio of the capacities at 17 F and 47 F. *)
Definition t24_ratio (hspf : R) : R :=
  if Rlt_dec hspf 7.5 then 0.1113 * hspf - 0.22269
  else if Rlt_dec hspf 9.5567 then 0.017 * hspf + 0.4804
  else if Rlt_dec hspf 10.408 then 0.0982 * hspf - 0.2956
  else 0.0232 * hspf + 0.485.

(** The net capacity of heating speed [i] at 47, 17 and 35 F. *)
Definition anchor47 (u : dxunit R) (i : nat) (q : R) : Prop :=
  nth_error (sd_net_cap (u_h u)) i = Some q.
Definition anchor17 (u : dxunit R) (i : nat) (q : R) : Prop :=
  supplied u "cap17" i q
  \/ not_supplied u "cap17"
     /\ exists hspf q47, u_hspf u = Some hspf /\ anchor47 u i q47
                         /\ q = t24_ratio hspf * q47.
Definition anchor35 (u : dxunit R) (i : nat) (q : R) : Prop :=
  supplied u "cap35" i q
  \/ not_supplied u "cap35"
     /\ exists q17 q47, anchor17 u i q17 /\ anchor47 u i q47
        /\ q = (q17 + (35 - 17) / (47 - 17) * (q47 - q17))
               * match df_strategy (u_defrost u) with DSNone => 1 | _ => 0.9 end.

(** The four heating methods of the Title 24 model. *)
Inductive heating_method :=
  SteadyCapacity | SteadyPower | IntegratedCapacity | IntegratedPower.
Definition t24_call (sol : solvers R) (m : heating_method) (u : dxunit R) (c : cond R)
    : st (t24 R) R :=
  match m with
  | SteadyCapacity => t24_heating_capacity u c
  | SteadyPower => t24_heating_power sol u c
  | IntegratedCapacity => t24_integrated_capacity u c
  | IntegratedPower => t24_integrated_power sol u c
  end.
(** The cached data after a sequence of calls, whatever they returned. *)
Definition t24_after (sol : solvers R) (u : dxunit R) (h : list (heating_method * cond R))
    (d : t24 R) : t24 R :=
  fold_left (fun d mc => fst (t24_call sol (fst mc) u (snd mc) d)) h d.

(** The table value for the speed and outdoor temperature of [c]. *)
Definition table_value (look : perf R -> R -> R -> res R) (u : dxunit R) (c : cond R)
    (tv : R) : Prop :=
  exists g m s, rn_gross (u_rn u) = Some g /\ rn_map (u_rn u) = Some m
    /\ nth_error m (c_speed c) = Some s /\ look g s (ps_db (c_outdoor c)) = Ok tv.
Definition uses_table (u : dxunit R) : Prop := rn_net (u_rn u) <> None.
