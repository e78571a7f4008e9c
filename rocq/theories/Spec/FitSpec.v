(** Specification vocabulary for fit parameters and the grid search. *)
From Verif Require Import Model.Base Model.Spectra Model.FitParam.
Local Open Scope list_scope.

(** Set the current value to each of the rates in turn and apply the parameter. *)
Definition rate_step (p : fpar) (st : spectra * out) (r : Qc) : spectra * out :=
  match st with
  | (s, None) => rate_apply (set_current_value r p) s
  | (s, Some e) => (s, Some e)
  end.
Definition apply_rates (p : fpar) (rs : list Qc) (s : spectra) : spectra * out :=
  fold_left (rate_step p) rs (s, None).

(** The last number given for a keyword, or a default. *)
Fixpoint last_given (k : string) (kws : list (string * Qc)) (d : Qc) : Qc :=
  match kws with
  | [] => d
  | (k', x) :: r => last_given k r (if String.eqb k k' then x else d)
  end.

(** The numbers and flags of a parameter that set_par can change; flags count as 0 and 1. *)
Definition flag_number (b : bool) : Qc := if b then 1%Qc else 0%Qc.
Definition field (p : fpar) (k : string) : option Qc :=
  if String.eqb k "prior" then Some (fp_prior p)
  else if String.eqb k "sigma" then fp_sigma p
  else if String.eqb k "low" then Some (fp_low p)
  else if String.eqb k "high" then Some (fp_high p)
  else if String.eqb k "bins" then Some (zq (fp_bins p))
  else if String.eqb k "logscale" then option_map flag_number (fp_logscale p)
  else if String.eqb k "base" then fp_base p
  else if String.eqb k "logscale_deviation" then option_map flag_number (fp_logdev p)
  else None.
(** What is stored for a number: bins are cut off behind the point, flags are whether it is not 0. *)
Definition stored (k : string) (x : Qc) : Qc :=
  if String.eqb k "bins" then zq (qtrunc x)
  else if String.eqb k "logscale" then flag_number (negb (qeq x 0))
  else if String.eqb k "logscale_deviation" then flag_number (negb (qeq x 0))
  else x.
(** The number that a keyword argument is. *)
Definition number_of (v : kwval) : option Qc :=
  match v with KNum x => Some x | KBool b => Some (flag_number b) | _ => None end.
(** All the other attributes. *)
Definition same_rest (p p' : fpar) : Prop :=
  fp_name p' = fp_name p /\ fp_dim p' = fp_dim p /\ fp_current p' = fp_current p /\ fp_best p' = fp_best p /\ fp_penalty p' = fp_penalty p.
(** The attributes a parameter has. *)
Definition attribute_names : list string :=
  ["name"; "prior"; "sigma"; "low"; "high"; "bins"; "dimension"; "values"; "current_value"; "best_fit"; "penalty_term"; "logscale"; "base";
   "logscale_deviation"; "bin_boundaries"; "min"; "max"; "type"; "logger"]%string.
