(** Changing an axis after it was made: echidna/core/parameter.py, SpectraParameter.set_par
    and get_unit. *)
From Verif Require Import Model.Base Model.PyStr Model.Param Model.FitParam Model.FitConfig.
Local Open Scope string_scope.

(** parameter.py:1159-1167, one turn of the loop. *)
Definition set_axis_one (kw : string) (v : jval) (p : spar) : res spar :=
  if kw =? "low" then do x <- jfloat v; Ok (SPar x (sp_high p) (sp_bins p))
  else if kw =? "high" then do x <- jfloat v; Ok (SPar (sp_low p) x (sp_bins p))
  else if kw =? "bins" then do n <- jint v; Ok (SPar (sp_low p) (sp_high p) n)
  else Err ETypeError.
(** parameter.py:1142-1167, set_par with keyword arguments.  The list is the order in which the dict is
    iterated, which Python 2 does not define. *)
Fixpoint set_axis (kws : jdict) (p : spar) : spar * option exn :=
  match kws with
  | [] => (p, None)
  | (k, v) :: kws' =>
      match set_axis_one k v p with
      | Err e => (p, Some e)
      | Ok p' => set_axis kws' p'
      end
  end.
(** parameter.py:1117-1129, get_unit; None for other names. *)
Definition get_unit (name : string) : option string :=
  let d := hd "" (split_char "_"%char name) in
  if d =? "energy" then Some "MeV" else if d =? "radial" then Some "mm" else None.
