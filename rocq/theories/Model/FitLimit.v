(** echidna/fit/fit.py and echidna/limit/limit.py put together: a Fit with its spectra, its
    dictionary of convolved spectra and its GridSearch, and a Limit that scales the signal
    of the fit, removes it and puts it back between fits. *)
From Verif Require Import Model.Base Model.PyStr Model.NDArray Model.Param Model.Config Model.Spectra
  Model.Smear Model.Shift Model.FitParam Model.Heap Model.Minimise Model.Fit Model.FitPrepare Model.Limit.
Local Open Scope nat_scope.

(** What does not change during fits (fit.py:78-151): how values are printed, the fit
    parameters (as they act on spectra), those of each floating background, how many come from
    spectra (config.py:377-387), compute_statistic, get_penalty_term, the flags of the fit
    and of the test statistic, the values of a parameter on a logarithmic scale, and
    check_fit_config of a spectrum (226-240). *)
Record setup := Setup {
  su_str : Qc -> string;
  su_pars : list fitpar;
  su_owns : list (list nat);
  su_spectra_pars : nat;
  su_stat : list Qc -> list Qc -> res sres;
  su_pen : Qc -> Qc -> Qc -> Qc;
  su_per_bin : bool;
  su_single_bin : bool;
  su_stat_per_bin : bool;
  su_grid : fpar -> res (list Qc);
  su_config : nat -> out }.
(** What fits change: the spectra (objects and attributes), _global_dict, the current values of
    the parameters, the minimiser, _checked (fit.py:78-151). *)
Record fitter := Fitter {
  u_set : fitset;
  u_cache : dict (dict (nat * list nat));
  u_cur : list (option Qc);
  u_search : option gsearch;
  u_checked : bool }.
(** Assignment to attributes of the fit that hold spectra. fit.py:663-822 *)
Definition u_with_set (u : fitter) (z : fitset) : fitter := Fitter z (u_cache u) (u_cur u) (u_search u) (u_checked u).
(** Assignment to self._checked, fit.py:276. *)
Definition u_with_checked (u : fitter) (b : bool) : fitter := Fitter (u_set u) (u_cache u) (u_cur u) (u_search u) b.
(** The state _funct works on. fit.py:447-580 *)
Definition u_state (u : fitter) : fstate := FState (z_heap (u_set u)) (u_cache u) (u_cur u).
(** The fit after _funct or minimise. fit.py:423-445 *)
Definition u_after (u : fitter) (st : fstate) (g : option gsearch) : fitter :=
  Fitter (z_with_heap (u_set u) (fs_heap st)) (fs_cache st) (fs_cur st) g (u_checked u).

(** fit.py:663-666, remove_signal *)
Definition remove_signal (u : fitter) : fitter := u_with_set u (z_with_signal (u_set u) None).
(** fit.py:807-822, set_signal of Model/FitPrepare.v *)
Definition u_set_signal (r : nat) (shrink : bool) (u : fitter) : fitter * out :=
  let (z, e) := set_signal r shrink (u_set u) in (u_with_set u z, e).

(** [if self._floating_backgrounds:]; fit.py:432 *)
Definition floats (z : fitset) : bool := match z_floating z with None | Some ([], _) => false | Some _ => true end.
(** fit.py:286-288: get_values of every parameter, for the log *)
Definition values_logged (grid : fpar -> res (list Qc)) (g : gsearch) : out :=
  first_error (map (fun p => match snd (get_values grid p) with Ok _ => None | Err e => Some e end) (gs_pars g)).
(** fit.py:242-275: the checks of check_fitter.  The number of parameters is that of
    self._fit_config, which the minimiser holds too. *)
Definition fitter_checks (su : setup) (u : fitter) : out :=
  match check_all_spectra (su_config su) (u_set u) with
  | Some e => Some e
  | None =>
      match (if floats (u_set u) then if (length (su_pars su) =? 0)%nat then Some EIndexError else None
             else if (su_spectra_pars su =? 0)%nat then None else Some EValueError) with
      | Some e => Some e
      | None =>
          match u_search u with
          | None => Some EAttributeError
          | Some g => if su_per_bin su then if gs_per_bin g then if su_stat_per_bin su then None else Some EValueError else Some EValueError else None
          end
      end
  end.
(** fit.py:242-288, check_fitter *)
Definition check_fitter (su : setup) (u : fitter) : fitter * out :=
  match fitter_checks su u with
  | Some e => (u, Some e)
  | None => (u_with_checked u true, match u_search u with Some g => values_logged (su_grid su) g | None => None end)
  end.

(** numpy indexing with a full tuple gives a number (minimise.py:366) *)
Definition unboxed (a : ndarray) : sres := match ashape a with [] => RNum (aget a []) | _ => RArr a end.
(** What fit() returns: what compute_statistic gives, or the pair of minimise (fit.py:440-445,
    minimise.py:366). *)
Inductive returned := Value (x : sres) | Pair (stat penalty : ndarray).
(** fit.py:429-445: fit() after the check. *)
Definition run_fit (su : setup) (u : fitter) : fitter * res returned :=
  if floats (u_set u) then
    match u_search u, z_data (u_set u) with
    | None, _ => (u, Err EAttributeError)
    | Some _, None => (u, Err EAttributeError)
    | Some g, Some (d, dp) =>
        let ft := fit_of (su_str su) (su_pars su) (su_owns su) (u_set u) d dp in
        let '(s, r) := minimise (su_grid su) (objective ft (su_stat su) (su_pen su) (su_per_bin su) (su_single_bin su))
                         (fun v p s => Ok (su_pen su v p s)) (SS (u_state u) g) in
        (u_after u (ss_obj s) (Some (ss_gs s)), do x <- r; Ok (Pair (fst x) (snd x)))
    end
  else (u, rmap Value (fit_fixed (su_stat su) (su_single_bin su) (u_set u))).
(** fit.py:423-445, fit *)
Definition fit_all (su : setup) (u : fitter) : fitter * res returned :=
  if u_checked u then run_fit su u
  else let (u1, e) := check_fitter su u in
       match e with Some e => (u1, Err e) | None => run_fit su u1 end.
(** limit.py:128-129, 168-169: the first component of a pair. *)
Definition stat_only (x : returned) : sres := match x with Value x => x | Pair s _ => unboxed s end.
(** The same of fit() as get_limit uses it, limit.py:127-129, 167-169. *)
Definition u_fit (su : setup) (u : fitter) : fitter * res sres :=
  let (u1, x) := fit_all su u in (u1, rmap stat_only x).

(** fit.py:742-781, set_minimiser without argument: a GridSearch over the fit parameters.
    [fps]: the parameters of self._fit_config as the search sees them; [name]: its name. *)
Definition set_minimiser (su : setup) (fps : list fpar) (name : string) (u : fitter) : fitter * out :=
  match check_all_spectra (su_config su) (u_set u) with
  | Some e => (u, Some e)
  | None =>
      let z := u_set u in
      let r := match (if su_per_bin su then z_floating z else None) with
               | Some (r :: _, _) => Some r
               | _ => match z_data z with Some (d, _) => Some d | None => None end
               end in
      match r with
      | None => (u, Some EAttributeError)
      | Some r =>
          match abs (z_heap z) r with
          | None => (u, Some EAttributeError)
          | Some s =>
              (Fitter z (u_cache u) (u_cur u)
                 (Some (new_search fps (map Z.to_nat (get_shape (s_cfg s))) (Some name) (su_per_bin su) true)) (u_checked u), None)
          end
      end
  end.

(** fit_results.py:68-82, get_summary: the penalty terms.  get_best_fit and get_penalty_term
    raise if nothing has been recorded (parameter.py:290-303, 388-402). *)
Definition summary_pens (g : gsearch) : res (list Qc) :=
  rmapM (fun p => do _ <- or_raise (fp_best p); or_raise (fp_penalty p)) (gs_pars g).

(** limit.py:39-55, Limit.__init__: what it does to the fitter. *)
Definition limit_init (su : setup) (r : nat) (shrink : bool) (u : fitter) : fitter * out :=
  match su_config su r with
  | Some e => (u, Some e)
  | None => u_set_signal r shrink u
  end.
(** limit.py:157-166 (and 127): the signal [r] of the Limit is removed from the fit, or put back
    if the fit has none, and scaled. *)
Definition select (r : nat) (k : option Qc) (u : fitter) : fitter * out :=
  match k with
  | None => (remove_signal u, None)
  | Some k =>
      let (u1, e) := match z_signal (u_set u) with None => u_set_signal r false u | Some _ => (u, None) end in
      match e with
      | Some e => (u1, Some e)
      | None =>
          match z_signal (u_set u1) with
          | None => (u1, Some EAttributeError)
          | Some (q, _) => let (h, e) := h_scale k q (z_heap (u_set u1)) in (u_with_set u1 (z_with_heap (u_set u1) h), e)
          end
      end
  end.
(** limit.py:127-138, 157-177: one fit of a Limit. *)
Definition limit_fit (su : setup) (r : nat) (u : fitter) (k : option Qc) : fitter * res fitout :=
  let (u1, e) := select r k u in
  match e with
  | Some e => (u1, Err e)
  | None =>
      let (u2, x) := u_fit su u1 in
      (u2, do t <- x;
           do pens <- (match u_search u2 with Some g => rmap Some (summary_pens g) | None => Ok None end);
           Ok (FitOut t pens))
  end.
(** limit.py:89-300 with this fit.  [scales]: get_values() of the signal's rate. *)
Definition limit_of (su : setup) (r : nat) (scales : list Qc) (fps : list fpar) (u : fitter) (limit : Qc) (min_stat : option Qc) : fitter * res Qc :=
  get_limit (limit_fit su r) scales (length scales) [length scales] (map fp_sigma fps) u limit min_stat.

(** ** Histories: _funct called by any minimiser, and a Limit between the calls;
    minimise.py:303-367; limit.py:89-300 *)
Inductive event := Eval (args : list Qc) | Select (k : option Qc).
(** One call of the fit function as any minimiser makes it (fit.py:447-580, 445). *)
Definition u_eval (su : setup) (args : list Qc) (u : fitter) : fitter * res (ndarray * ndarray) :=
  match z_data (u_set u) with
  | None => (u, Err EAttributeError)
  | Some (d, dp) =>
      let (st, x) := spectra_of (fit_of (su_str su) (su_pars su) (su_owns su) (u_set u) d dp) args (u_state u) in
      (u_after u st (u_search u), x)
  end.
(** One call or one change of the signal. minimise.py:303-367; limit.py:150-165 *)
Definition u_step (su : setup) (r : nat) (e : event) (u : fitter) : fitter :=
  match e with
  | Eval args => fst (u_eval su args u)
  | Select k => fst (select r k u)
  end.
(** One after the other. limit.py:150-240 *)
Definition u_run (su : setup) (r : nat) (l : list event) (u : fitter) : fitter := fold_left (fun u e => u_step su r e u) l u.
