(** The checks of parameter values: echidna/core/parameter.py, FitParameter.check_values
    (247-288); echidna/fit/fit.py, check_fit_config (226-240) and the checks made while a
    Fit is built (120-123, 727-736); echidna/utilities.py:137-138.  Over the real numbers,
    with the grids of Model/FitGrid.v. *)
From Coq Require Import Reals String.
From Verif Require Import Model.Base Model.FitGrid.
Local Open Scope R_scope.

(** The attributes of a FitParameter that check_values reads: _values when it is set (None:
    the grid is built), _min and _max (parameter.py:43-44; None is an infinite bound). *)
Record checked := CK { ck_grid : grid; ck_values : option (list R); ck_min : option R; ck_max : option R }.
(** RateParameter sets _min = 0, parameter.py:657-665; the other classes keep (-inf, inf). *)
Definition rate_parameter (g : grid) (v : option (list R)) : checked := CK g v (Some 0) None.
(** parameter.py:43-44 *)
Definition other_parameter (g : grid) (v : option (list R)) : checked := CK g v None None.
(** get_values, parameter.py:419-487 *)
Definition ck_get_values (c : checked) : res (list R) :=
  match ck_values c with Some l => Ok l | None => grid_values (ck_grid c) end.

(** The two UserWarnings, parameter.py:266-268 (how many values) and 276-277 *)
Inductive warning := WOutside (n : nat) | WNoPrior.
(** (values < _min) | (values > _max), parameter.py:262-263 *)
Definition bad (c : checked) (v : R) : bool :=
  (match ck_min c with Some m => if Rlt_dec v m then true else false | None => false end ||
   match ck_max c with Some m => if Rlt_dec m v then true else false | None => false end)%bool.
(** numpy.around(x, 12), parameter.py:274-275: x * 10**12 to the nearest integer, divided
    by 10**12 *)
Definition around12 (x : R) : R := IZR (rint (x * IZR (10 ^ 12))) / IZR (10 ^ 12).
(** around(v / prior, 12) == around(1., 12), parameter.py:274-275.  v / 0. is inf or nan in
    numpy, which is not equal to 1. *)
Definition at_prior (prior v : R) : bool :=
  if Req_EM_T prior 0 then false
  else if Req_EM_T (around12 (v / prior)) (around12 1) then true else false.

(** What ends a check: an exception, or a warning turned into one.
    parameter.py:266, 276; utilities.py:137-138 *)
Inductive stop := Raises (e : exn) | Warns (w : warning).
(** warnings.warn; [cautious]: simplefilter("error", UserWarning), utilities.py:137-138 *)
Definition warn (cautious : bool) (w : warning) : list warning * option stop :=
  if cautious then ([], Some (Warns w)) else ([w], None).
(** One statement after the other. parameter.py:259-276 *)
Definition andthen {A} (x : list A * option stop) (y : list A * option stop) : list A * option stop :=
  match snd x with Some _ => x | None => (fst x ++ fst y, snd y) end.
(** check_values, parameter.py:247-288: the warnings given and what it was ended by *)
Definition check_values (cautious : bool) (c : checked) : list warning * option stop :=
  match ck_get_values c with
  | Err e => ([], Some (Raises e))
  | Ok values =>
      andthen
        (let n := length (filter (bad c) values) in                         (* 262-271 *)
         if (n =? 0)%nat then ([], None) else warn cautious (WOutside n))
        (if existsb (at_prior (gr_prior (ck_grid c))) values then ([], None)  (* 274-277 *)
         else warn cautious WNoPrior)
  end.

(** The names of the parameters with the warnings about them. parameter.py:268, 277 *)
Definition named {A} (n : string) (x : list A * option stop) : list (string * A) * option stop :=
  (map (pair n) (fst x), snd x).
(** check_fit_config of a spectrum with a fit config: every parameter of the config,
    fit.py:238-240 *)
Fixpoint check_config (cautious : bool) (pars : list (string * checked)) : list (string * warning) * option stop :=
  match pars with
  | [] => ([], None)
  | (n, c) :: r => andthen (named n (check_values cautious c)) (check_config cautious r)
  end.
(** add_par, config.py:251-262: a parameter of a known name replaces the one that was there,
    others are added; [true] marks a global parameter. *)
Fixpoint put_par (n : string) (e : bool * checked) (l : list (string * (bool * checked)))
  : list (string * (bool * checked)) :=
  match l with
  | [] => [(n, e)]
  | (m, x) :: r => if (m =? n)%string then (m, e) :: r else (m, x) :: put_par n e r
  end.
(** add_config with the config of a spectrum, config.py:235-241: the name of the spectrum is
    put in front of the name of the parameter. *)
Fixpoint put_all (spectrum : string) (pars : list (string * checked)) (l : list (string * (bool * checked))) :=
  match pars with
  | [] => l
  | (n, c) :: r => put_all spectrum r (put_par (spectrum ++ "_" ++ n) (false, c) l)
  end.
(** set_floating_backgrounds, fit.py:727-736: each background that has a fit config is
    checked, then its parameters join those of the fit.  A background is its name and its
    config. *)
Fixpoint check_floats (cautious : bool) (floats : list (string * option (list (string * checked))))
  (l : list (string * (bool * checked))) : (list (string * warning) * option stop) * list (string * (bool * checked)) :=
  match floats with
  | [] => (([], None), l)
  | (_, None) :: r => check_floats cautious r l
  | (s, Some pars) :: r =>
      let x := check_config cautious pars in
      match snd x with
      | Some _ => (x, l)
      | None => let y := check_floats cautious r (put_all s pars l) in (andthen x (fst y), snd y)
      end
  end.
(** get_spectra_pars, config.py:377-387 *)
Definition spectra_pars (l : list (string * (bool * checked))) : list (string * checked) :=
  map (fun e => (fst e, snd (snd e))) (filter (fun e => negb (fst (snd e))) l).
(** Fit.__init__, fit.py:110-123: first set_floating_backgrounds, then the values of all
    parameters of spectra; [given] is the configuration the Fit was given. *)
Definition check_fit (cautious : bool) (given : list (string * (bool * checked)))
  (floats : list (string * option (list (string * checked)))) : list (string * warning) * option stop :=
  let (x, l) := check_floats cautious floats given in
  andthen x (check_config cautious (spectra_pars l)).
