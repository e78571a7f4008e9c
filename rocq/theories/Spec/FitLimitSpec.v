(** Specification vocabulary for C65-C67: fits and limits with a signal of any normalisation. *)
From Verif Require Import Model.Base Model.PyStr Model.NDArray Model.Param Model.Config Model.Spectra
  Model.Smear Model.Shift Model.FitParam Model.Heap Model.Minimise Model.Fit Model.FitPrepare Model.FitLimit.
From Verif Require Import Spec.AxisSpec Spec.ArraySpec Spec.SpectraSpec Spec.ShrinkSpec Spec.HeapSpec Spec.SearchSpec Spec.FitRunSpec Spec.LimitSpec.

Definition done (x : spectra * out) : res spectra := match x with (t, None) => Ok t | (_, Some e) => Err e end.
(** An operation commutes with the normalisation: what it makes of a spectrum scaled to [n]
    decays is what it makes of the spectrum, scaled to [n] decays; for every number of decays
    of the same sign as that of the spectrum. *)
Definition keeps_scaling (f : spectra -> res spectra) : Prop :=
  forall n s, (0 < n / s_decays s)%Qc ->
    same_res same_spectra (do s1 <- done (scale n s); f s1) (do t <- f s; done (scale n t)).
Definition commutes (k : pkind) : Prop := forall v, keeps_scaling (apply_value k v).
(** The interpolation of a spectrum multiplied by a positive number is the multiple of the
    interpolation (so it is for scipy's splines up to rounding). *)
Definition linear_spline (spline : list Qc -> list Qc -> Qc -> Qc) : Prop :=
  forall x y c v, (0 < c)%Qc -> (spline x (map (fun a => a * c) y) v = spline x y v * c)%Qc.

(** ** C66: the signal of a fit is scaled, removed and put back *)
(** Data and sum of the parts when the signal is the spectrum [sig] (at the place [p] of the
    fit), or when there is none. *)
Definition fitted_with (ft : fit) (h : heap) (p : part) (args : list Qc) (sig : option spectra) : res (ndarray * ndarray) :=
  do o <- observed ft h;
  do fixed <- (match ft_fixed ft with
               | None => Ok None
               | Some (r, pars) => do s <- shown h r; rmap Some (nd_project pars s)
               end);
  do e <- sum_parts fixed (map (floating_contribution ft h args) (ft_floating ft) ++
            match sig with
            | Some s => [do s' <- apply_values (ft_pars ft) args (global_pars ft) s; nd_project (pt_pars p) s']
            | None => []
            end);
  match e with Some e => Ok (o, e) | None => Err ETypeError end.
(** The same when only the last global parameter is applied to the signal. *)
Definition fitted_last_with (ft : fit) (h : heap) (p : part) (args : list Qc) (sig : option spectra) : res (ndarray * ndarray) :=
  do o <- observed ft h;
  do fixed <- (match ft_fixed ft with
               | None => Ok None
               | Some (r, pars) => do s <- shown h r; rmap Some (nd_project pars s)
               end);
  do e <- sum_parts fixed (map (floating_contribution ft h args) (ft_floating ft) ++
            match sig with
            | Some s => [do s' <- apply_last (ft_pars ft) args (global_pars ft) s s; nd_project (pt_pars p) s']
            | None => []
            end);
  match e with Some e => Ok (o, e) | None => Err ETypeError end.
(** The original signal scaled to [k] decays. *)
Definition scaled_to (k : Qc) (s0 : spectra) : spectra := fst (scale k s0).
(** The signal after a history: what the last [Select] says. *)
Definition signal_after (s0 : spectra) (l : list event) : option spectra :=
  fold_left (fun x e => match e with
                        | Eval _ => x
                        | Select None => None
                        | Select (Some k) => Some (scaled_to k s0)
                        end) l (Some s0).
(** A fit with a signal, before its first evaluation. *)
Record limit_ready (su : setup) (u : fitter) (ft : fit) (p : part) (s0 : spectra) : Prop := LimitReady {
  lr_fit : exists d dp, z_data (u_set u) = Some (d, dp) /\ ft = fit_of (su_str su) (su_pars su) (su_owns su) (u_set u) d dp;
  lr_prepared : prepared ft (z_heap (u_set u));
  lr_signal : ft_signal ft = Some p;
  lr_spectrum : abs (z_heap (u_set u)) (pt_ref p) = Some s0;
  (* its parameters are those of the region of interest *)
  lr_pars : roi_pars (the_roi (u_set u)) (s_cfg s0) = Ok (pt_pars p);
  (* it is neither the data nor the fixed background *)
  lr_apart : pt_ref p <> ft_data ft /\ forall r pars, ft_fixed ft = Some (r, pars) -> pt_ref p <> r;
  (* global parameters commute with the normalisation: C65 *)
  lr_commutes : forall i q, In i (global_pars ft) -> nth_error (ft_pars ft) i = Some q -> commutes (q_kind q);
  lr_start : u_cache u = [] /\ u_cur u = map (fun _ => None) (su_pars su) }.
(** Evaluations with one value for each parameter; scalings to a number of decays of the same
    sign as the signal has. *)
Definition event_ok (ft : fit) (V : Qc -> Prop) (s0 : spectra) (e : event) : Prop :=
  match e with
  | Eval args => good_args ft V args
  | Select (Some k) => (0 < k / s_decays s0)%Qc
  | Select None => True
  end.

(** ** C67: a limit *)
(** The signal at a scaling; none at (or near) zero. *)
Definition at_scale (s0 : spectra) (k : Qc) : option spectra := if isclose k 0 then None else Some (scaled_to k s0).
(** Statistic [t] and penalty [q] of the first of the points with the smallest sum of both. *)
Definition best_point (value : list Qc -> res (sres * Qc)) (points : list (list Qc)) (t q : Qc) : Prop :=
  exists k v, nth_error points k = Some v /\ value v = Ok (RNum t, q) /\
    forall k' v' t' q', nth_error points k' = Some v' -> value v' = Ok (RNum t', q') ->
      (t + q <= t' + q')%Qc /\ ((k' < k)%nat -> (t + q < t' + q')%Qc).
(** The value to minimise for given data and sum of the parts. *)
Definition value_for (su : setup) (ft : fit) (h : heap) (W : list Qc -> option spectra -> res (ndarray * ndarray)) (sig : option spectra) (args : list Qc) : res (sres * Qc) :=
  value_of ft h (su_stat su) (su_pen su) (su_per_bin su) (su_single_bin su) args (W args sig).
(** The same computed from the original spectra and the given signal ... *)
Definition value_with (su : setup) (ft : fit) (h : heap) (p : part) : option spectra -> list Qc -> res (sres * Qc) :=
  value_for su ft h (fitted_with ft h p).
(** ... and when only the last global parameter is applied to the signal. *)
Definition value_last_with (su : setup) (ft : fit) (h : heap) (p : part) : option spectra -> list Qc -> res (sres * Qc) :=
  value_for su ft h (fitted_last_with ft h p).
(** The search of the fit: its parameters are those of the fit, with the values [ls]. *)
Record searches (su : setup) (u : fitter) (g : gsearch) (ls : list (list Qc)) : Prop := Searches {
  se_search : u_search u = Some g;
  se_grid : grid_of (su_grid su) (gs_pars g) ls;
  se_ready : ready g ls;
  se_total : gs_per_bin g = false /\ su_per_bin su = false;
  se_some : Forall (fun l => l <> []) ls /\ (gs_use_numpy g = true \/ ls <> []);
  se_pars : Forall2 (fun q p => q_prior q = fp_prior p /\ q_sigma q = fp_sigma p) (su_pars su) (gs_pars g);
  se_checked : u_checked u = true \/ fitter_checks su u = None }.
(** Calls of get_limit: scalings of the signal, threshold, minimum given by the caller. *)
Definition lcall : Type := list Qc * Qc * option Qc.
Definition run_call (su : setup) (r : nat) (fps : list fpar) (c : lcall) (u : fitter) : fitter * res Qc :=
  match c with (scales, limit, ms) => limit_of su r scales fps u limit ms end.
Definition after_calls (su : setup) (r : nat) (fps : list fpar) (cs : list lcall) (u : fitter) : fitter :=
  fold_left (fun u c => fst (run_call su r fps c u)) cs u.
(** The signals that are fitted. *)
Definition signals (s0 : spectra) (scales : list Qc) (ms : option Qc) : list (option spectra) :=
  match ms with None => [None] | Some _ => [] end ++ map (at_scale s0) scales.
(** Scalings of the same sign as the decays of the signal (or near zero), and fits that give
    numbers. *)
Definition call_gives (value : option spectra -> list Qc -> res (sres * Qc)) (s0 : spectra) (ls : list (list Qc)) (c : lcall) : Prop :=
  match c with
  | (scales, _, ms) =>
      scales <> [] /\ ms <> Some 0%Qc /\ Forall (fun k => isclose k 0 = true \/ (0 < k / s_decays s0)%Qc) scales /\
      forall sig v, In sig (signals s0 scales ms) -> In v (combinations ls) ->
        exists t q, value sig v = Ok (RNum t, q)
  end.
Definition call_ok (su : setup) (ft : fit) (h : heap) (p : part) : spectra -> list (list Qc) -> lcall -> Prop :=
  call_gives (value_with su ft h p).
(** What get_limit has to answer: [m] is the statistic of the best fit without signal (unless
    given), [t] and [q] statistic and penalty of the best fit for each scaling; the first
    scaling, from the one with the smallest statistic on, for which the statistic less [m]
    plus the penalty is above the threshold. *)
Definition limit_right (value : option spectra -> list Qc -> res (sres * Qc)) (s0 : spectra) (points : list (list Qc)) (c : lcall) (answer : res Qc) : Prop :=
  match c with
  | (scales, limit, ms) =>
      exists (m : Qc) (t q : nat -> Qc) (b : nat),
        match ms with Some x => m = x | None => exists q0, best_point (value None) points m q0 end /\
        (forall j, (j < length scales)%nat -> best_point (value (at_scale s0 (nth j scales 0%Qc))) points (t j) (q j)) /\
        first_least t (length scales) b /\
        match answer with
        | Ok x => exists j, first_crossing (fun j => (t j - m + q j)%Qc) b (length scales) limit j /\ x = nth j scales 0%Qc
        | Err e => e = ELimitError /\ forall j, (b <= j < length scales)%nat -> (t j - m + q j <= limit)%Qc
        end
  end.
