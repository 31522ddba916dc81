(** Model of /repo/resdx/rating_solver.py *)
From Coq Require Import QArith List String.
From Verif.Base Require Import Num Res.
From Verif.Model Require Import Units Psychrometrics Defrost Fan Unit Resnet DXUnit.
Import ListNotations.
Local Open Scope nat_scope.

Section RatingSolver.
  Context {T : Type} {NT : Num T} {NX : NumX T}.
  Variable psy : psychro T.
  Variable sol : solvers T.
  Local Open Scope num_scope.

  (** The arguments of [make_rating_unit] (rating_solver.py:10-22). *)
  Record solver_inputs := mkInputs {
    ri_staging : staging_type;
    ri_seer : T;
    ri_hspf : T;
    ri_eer : option T;
    ri_q95 : T;
    ri_q47 : option T;
    ri_qm17 : T;
    ri_t_min : option T;
    ri_t_max : T;
    ri_t_defrost : T;
    ri_standard : ahri_version
  }.

  (** The keyword arguments of the three [DXUnit(...)] calls,
      rating_solver.py:34-47, 54-68, 73-87. *)
  Definition rating_args (r : solver_inputs) (cop_82_min : T) (cop_47 : option T)
      : dxargs T :=
    let d : dxargs T := default_args in
    let q47 := match ri_q47 r with Some q => q | None => ri_q95 r end in
    mkArgs (Some (ri_staging r)) (Scalar (ri_q95 r)) (a_gross_ccop d) (a_net_ccop d)
      (a_cflow d) (a_cd_c d) (ri_t_max r)
      (option_map Scalar (ri_q47 r)) (a_gross_hcop d) (option_map Scalar cop_47)
      (a_hflow d) (a_cd_h d) (ri_t_min r) (a_heating_on d)
      (Some (default_defrost (ri_t_defrost r)))
      (a_fan d) (a_hfan_speed d) (a_cfan_speed d) (a_rated_hfan_speed d)
      (a_rated_cfan_speed d) (a_crank d) (a_crank_setpoint d) (a_charge d)
      (a_cycling d) (a_cfull d) (a_cint d) (a_hfull d) (a_hint d) (a_ducted d)
      (ri_standard r) (Some (ri_seer r)) (ri_eer r) (Some (ri_hspf r))
      [("rated_net_heating_capacity_17"%string, KNum (q47 * ri_qm17 r));
       ("rated_net_total_cooling_cop_82_min"%string, KNum cop_82_min)].

  Definition M : dxmodel T := RESNETDXModel psy sol.

  Definition rating_unit (r : solver_inputs) (cop_82_min : T) (cop_47 : option T)
      : res (dxunit T) := DXUnit psy sol M (rating_args r cop_82_min cop_47).

  (** rating_solver.py:34-48: what the first root finder evaluates. *)
  Definition seer_error (r : solver_inputs) (cop_82_min : T) : res T :=
    let! u := rating_unit r cop_82_min None in
    let! s := seer sol M u in
    Ok (s - ri_seer r).

  (** rating_solver.py:54-69: what the second root finder evaluates. *)
  Definition hspf_error (r : solver_inputs) (cop_82_min cop_47 : T) : res T :=
    let! u := rating_unit r cop_82_min (Some cop_47) in
    let! s := hspf sol M u 4 in
    Ok (s - ri_hspf r).

  (** rating_solver.py:10-87 *)
  Definition make_rating_unit (r : solver_inputs) : res (dxunit T) :=
    let! cop_82_min :=
      match ri_staging r with
      | SINGLE_STAGE => Ok (lit 3)
      | _ => run_prober_pure (seer_error r) (newton sol (ri_seer r / lit 3))
      end in
    let! cop_47 := run_prober_pure (hspf_error r cop_82_min)
                     (newton sol (ri_hspf r / lit 2)) in
    rating_unit r cop_82_min (Some cop_47).
End RatingSolver.
