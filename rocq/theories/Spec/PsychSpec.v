(** Specifications for PsychState (C04-C06). *)
From Coq Require Import Reals List String.
From Verif.Base Require Import Num Res.
From Verif.Model Require Import Units Psychrometrics.
Import ListNotations.

(** The attribute reads a user can perform on a [PsychState]. *)
Inductive psych_attr := A_db | A_wb | A_wb_C | A_hr | A_rh | A_h | A_rho.

Definition read_attr (psy : psychro R) (a : psych_attr) : st (psych_state R) R :=
  match a with
  | A_db => sread (fun s => Ok (ps_db s))
  | A_wb => get_wb
  | A_wb_C => get_wb_C
  | A_hr => get_hr psy
  | A_rh => get_rh psy
  | A_h => get_h psy
  | A_rho => get_rho psy
  end.

(** The object after a history of reads (some of which may have raised). *)
Fixpoint after_reads (psy : psychro R) (hist : list psych_attr)
    (s : psych_state R) : psych_state R :=
  match hist with
  | [] => s
  | a :: hist' => after_reads psy hist' (fst (read_attr psy a s))
  end.

(** The humidity keywords PsychState understands. *)
Definition humidity_keywords : list string :=
  ["wetbulb"; "hum_rat"; "rel_hum"; "enthalpy"]%string.

(** The attribute that corresponds to a keyword. *)
Definition keyword_attr (k : string) : option psych_attr :=
  if String.eqb k "wetbulb" then Some A_wb
  else if String.eqb k "hum_rat" then Some A_hr
  else if String.eqb k "rel_hum" then Some A_rh
  else if String.eqb k "enthalpy" then Some A_h
  else None.
