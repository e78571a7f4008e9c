(** echidna/core/parameter.py, classes FitParameter and RateParameter. *)
From Verif Require Import Model.Base Model.PyStr Model.NDArray Model.Param Model.Config Model.Spectra.
Local Open Scope string_scope.

(** parameter.py:194-229 and 35-44.  Omitted: loggers, [_type], [_min], [_max], [_bin_boundaries]
    (get_bin_boundaries is deprecated and not modelled).  None is [None]. *)
Record fpar := FPar {
  fp_name : string;
  fp_prior : Qc;
  fp_sigma : option Qc;
  fp_low : Qc;
  fp_high : Qc;
  fp_bins : Z;
  fp_dim : option string;
  fp_values : option (list Qc);
  fp_current : option Qc;
  fp_best : option Qc;
  fp_penalty : option Qc;
  fp_logscale : option bool;
  fp_base : option Qc;
  fp_logdev : option bool }.

(** Truth value of a flag that may be None, e.g. parameter.py:435. *)
Definition truthy (b : option bool) : bool := match b with Some true => true | _ => false end.

(** parameter.py:194-229, FitParameter.__init__.  [base] is set only together with logscale, and a
    false flag is not stored; formatting [base] (220) fails when it is None. *)
Definition new_fpar (name : string) (prior : Qc) (sigma : option Qc) (low high : Qc) (bins : Z)
  (dim : option string) (values : option (list Qc)) (current penalty best : option Qc)
  (logscale : option bool) (base : option Qc) (logdev : option bool) : res fpar :=
  if truthy logscale then
    match base with
    | None => Err ETypeError
    | Some _ => Ok (FPar name prior sigma low high bins dim values current best penalty logscale base None)
    end
  else
    Ok (FPar name prior sigma low high bins dim values current best penalty None None
          (if truthy logdev then logdev else None)).

(** Assignment to _values, e.g. parameter.py:586. *)
Definition fp_with_values (p : fpar) (v : option (list Qc)) : fpar :=
  FPar (fp_name p) (fp_prior p) (fp_sigma p) (fp_low p) (fp_high p) (fp_bins p) (fp_dim p) v
       (fp_current p) (fp_best p) (fp_penalty p) (fp_logscale p) (fp_base p) (fp_logdev p).
(** parameter.py:528-534 *)
Definition set_current_value (v : Qc) (p : fpar) : fpar :=
  FPar (fp_name p) (fp_prior p) (fp_sigma p) (fp_low p) (fp_high p) (fp_bins p) (fp_dim p) (fp_values p)
       (Some v) (fp_best p) (fp_penalty p) (fp_logscale p) (fp_base p) (fp_logdev p).
(** parameter.py:520-526 *)
Definition set_best_fit (v : Qc) (p : fpar) : fpar :=
  FPar (fp_name p) (fp_prior p) (fp_sigma p) (fp_low p) (fp_high p) (fp_bins p) (fp_dim p) (fp_values p)
       (fp_current p) (Some v) (fp_penalty p) (fp_logscale p) (fp_base p) (fp_logdev p).
(** parameter.py:589-596 *)
Definition set_penalty_term (v : Qc) (p : fpar) : fpar :=
  FPar (fp_name p) (fp_prior p) (fp_sigma p) (fp_low p) (fp_high p) (fp_bins p) (fp_dim p) (fp_values p)
       (fp_current p) (fp_best p) (Some v) (fp_logscale p) (fp_base p) (fp_logdev p).
(** parameter.py:290-303, 370-379, 388-402 *)
Definition or_raise (o : option Qc) : res Qc := match o with Some v => Ok v | None => Err EValueError end.
(** parameter.py:290-303 *)
Definition get_best_fit (p : fpar) : res Qc := or_raise (fp_best p).
(** parameter.py:370-379 *)
Definition get_current_value (p : fpar) : res Qc := or_raise (fp_current p).
(** parameter.py:388-402 *)
Definition get_penalty_term (p : fpar) : res Qc := or_raise (fp_penalty p).

Section Values.
(** The logarithmic grids, as rationals (Model/FitGrid.v gives them over the reals). *)
Variable log_grid : fpar -> res (list Qc).

(** parameter.py:419-487, get_values; the array is computed once and kept in [_values]. *)
Definition get_values (p : fpar) : fpar * res (list Qc) :=
  match fp_values p with
  | Some l => (p, Ok l)
  | None =>
      let r := if truthy (fp_logscale p) || truthy (fp_logdev p) then log_grid p
               else linspace (fp_low p) (fp_high p) (fp_bins p) in
      match r with
      | Ok l => (fp_with_values p (Some l), Ok l)
      | Err e => (p, Err e)
      end
  end.

(** parameter.py:489-498, get_value_at; negative indices count from the end *)
Definition get_value_at (p : fpar) (index : Z) : fpar * res Qc :=
  let '(p', r) := get_values p in
  (p', do l <- r; do k <- norm_index index (length l); Ok (nth k l 0%Qc)).

(** Position of the first element satisfying a test ([numpy.where(...)[0][0]]). parameter.py:514-518 *)
Fixpoint first_index (f : Qc -> bool) (l : list Qc) : option nat :=
  match l with
  | [] => None
  | x :: l' => if f x then Some 0%nat else option_map S (first_index f l')
  end.

(** parameter.py:500-518, get_value_index.  When the value is missing the error message is built
    with [%] applied to the second literal only, which has one placeholder for two
    arguments: TypeError instead of ValueError. *)
Definition get_value_index (p : fpar) (v : Qc) : fpar * res nat :=
  let '(p', r) := get_values p in
  (p', do l <- r;
       match first_index (fun x => qeq x v) l with
       | Some k => Ok k
       | None => Err ETypeError
       end).

(** parameter.py:305-318, get_bin.  A bare except: any failure selects the fallback. *)
Definition fp_get_bin (p : fpar) (v : Qc) : fpar * res Z :=
  let '(p', r) := get_values p in
  let fallback := do q <- qdiv (v - fp_low p)%Qc (fp_high p - fp_low p)%Qc; Ok (qtrunc (q * zq (fp_bins p))%Qc) in
  (p', match r with
       | Ok l => match first_index (fun x => isclose x v) l with Some k => Ok (Z.of_nat k) | None => fallback end
       | Err _ => fallback
       end).
End Values.

(** Values of keyword arguments of set_par. parameter.py:559-586 *)
Inductive kwval := KNum (x : Qc) | KBool (b : bool) | KNone | KStr (s : string).
(** [float(x)]; a string that is not a number raises ValueError (all strings here); parameter.py:559-586 *)
Definition kw_float (v : kwval) : res Qc :=
  match v with
  | KNum x => Ok x
  | KBool b => Ok (if b then 1%Qc else 0%Qc)
  | KNone => Err ETypeError
  | KStr _ => Err EValueError
  end.
(** bool(value), parameter.py:575-580 *)
Definition kw_bool (v : kwval) : bool :=
  match v with KNum x => negb (qeq x 0) | KBool b => b | KNone => false | KStr s => negb (String.eqb s "") end.
(** [%.4g] accepts numbers and bools only. parameter.py:559-586 *)
Definition formats (v : kwval) : bool := match v with KNum _ | KBool _ => true | _ => false end.
(** The attribute printed in the log lines of parameter.py:560-561: a number or None. *)
Definition onum (o : option Qc) : kwval := match o with Some x => KNum x | None => KNone end.
(** The same for a flag. parameter.py:559-586 *)
Definition obool (o : option bool) : kwval := match o with Some b => KBool b | None => KNone end.
(** The same for a string. parameter.py:559-586 *)
Definition ostr (o : option string) : kwval := match o with Some s => KStr s | None => KNone end.
(** [self.__dict__["_" + kw]], the attributes of the object.  [values] and
    [bin_boundaries] are None or arrays: neither can be formatted, likewise the logger. parameter.py:559-586 *)
Definition attribute (p : fpar) (kw : string) : option kwval :=
  dget kw [("name", KStr (fp_name p)); ("prior", KNum (fp_prior p)); ("sigma", onum (fp_sigma p));
           ("low", KNum (fp_low p)); ("high", KNum (fp_high p)); ("bins", KNum (zq (fp_bins p)));
           ("dimension", ostr (fp_dim p)); ("values", KNone); ("current_value", onum (fp_current p));
           ("best_fit", onum (fp_best p)); ("penalty_term", onum (fp_penalty p));
           ("logscale", obool (fp_logscale p)); ("base", onum (fp_base p));
           ("logscale_deviation", obool (fp_logdev p)); ("bin_boundaries", KNone);
           ("min", KNum 0%Qc); ("max", KNum 0%Qc); ("type", KStr "fit"); ("logger", KNone)].
(** parameter.py:562-584, one keyword.  [_bins] becomes a float in Python, truncated again where it
    is used as a number of values; truncated here. *)
Definition set_one (p : fpar) (kw : string) (v : kwval) : res fpar :=
  if kw =? "prior" then do x <- kw_float v;
    Ok (FPar (fp_name p) x (fp_sigma p) (fp_low p) (fp_high p) (fp_bins p) (fp_dim p) (fp_values p) (fp_current p) (fp_best p) (fp_penalty p) (fp_logscale p) (fp_base p) (fp_logdev p))
  else if kw =? "sigma" then
    Ok (FPar (fp_name p) (fp_prior p) (match kw_float v with Ok x => Some x | Err _ => None end) (fp_low p) (fp_high p) (fp_bins p) (fp_dim p) (fp_values p) (fp_current p) (fp_best p) (fp_penalty p) (fp_logscale p) (fp_base p) (fp_logdev p))
  else if kw =? "low" then do x <- kw_float v;
    Ok (FPar (fp_name p) (fp_prior p) (fp_sigma p) x (fp_high p) (fp_bins p) (fp_dim p) (fp_values p) (fp_current p) (fp_best p) (fp_penalty p) (fp_logscale p) (fp_base p) (fp_logdev p))
  else if kw =? "high" then do x <- kw_float v;
    Ok (FPar (fp_name p) (fp_prior p) (fp_sigma p) (fp_low p) x (fp_bins p) (fp_dim p) (fp_values p) (fp_current p) (fp_best p) (fp_penalty p) (fp_logscale p) (fp_base p) (fp_logdev p))
  else if kw =? "bins" then do x <- kw_float v;
    Ok (FPar (fp_name p) (fp_prior p) (fp_sigma p) (fp_low p) (fp_high p) (qtrunc x) (fp_dim p) (fp_values p) (fp_current p) (fp_best p) (fp_penalty p) (fp_logscale p) (fp_base p) (fp_logdev p))
  else if kw =? "logscale" then
    Ok (FPar (fp_name p) (fp_prior p) (fp_sigma p) (fp_low p) (fp_high p) (fp_bins p) (fp_dim p) (fp_values p) (fp_current p) (fp_best p) (fp_penalty p) (Some (kw_bool v)) (fp_base p) (fp_logdev p))
  else if kw =? "base" then do x <- kw_float v;
    Ok (FPar (fp_name p) (fp_prior p) (fp_sigma p) (fp_low p) (fp_high p) (fp_bins p) (fp_dim p) (fp_values p) (fp_current p) (fp_best p) (fp_penalty p) (fp_logscale p) (Some x) (fp_logdev p))
  else if kw =? "logscale_deviation" then
    Ok (FPar (fp_name p) (fp_prior p) (fp_sigma p) (fp_low p) (fp_high p) (fp_bins p) (fp_dim p) (fp_values p) (fp_current p) (fp_best p) (fp_penalty p) (fp_logscale p) (fp_base p) (Some (kw_bool v)))
  else if kw =? "dimension" then
    Ok (FPar (fp_name p) (fp_prior p) (fp_sigma p) (fp_low p) (fp_high p) (fp_bins p) (match v with KStr s => Some s | _ => Some "" end) (fp_values p) (fp_current p) (fp_best p) (fp_penalty p) (fp_logscale p) (fp_base p) (fp_logdev p))
  else Err ETypeError.
(** parameter.py:536-587, set_par: the log message (560-561) is formatted before anything is set, from
    the old and the new value. *)
Fixpoint set_pars (kws : list (string * kwval)) (p : fpar) : fpar * out :=
  match kws with
  | [] => (fp_with_values p None, None)
  | (kw, v) :: r =>
      match attribute p kw with
      | None => (p, Some EKeyError)
      | Some old =>
          if formats old && formats v then
            match set_one p kw v with
            | Ok p' => set_pars r p'
            | Err e => (p, Some e)
            end
          else (p, Some ETypeError)
      end
  end.

(** parameter.py:667-684, RateParameter.apply_to: scales the spectrum in place *)
Definition rate_apply (p : fpar) (s : spectra) : spectra * out :=
  match fp_current p with
  | None => (s, Some EValueError)
  | Some v => scale v s
  end.
