(** Specification vocabulary for C67 with one statistic per bin. *)
From Verif Require Import Model.Base Model.PyStr Model.NDArray Model.Param Model.Config Model.Spectra
  Model.Smear Model.Shift Model.FitParam Model.Heap Model.Minimise Model.Fit Model.FitPrepare Model.Limit Model.FitLimit.
From Verif Require Import Spec.AxisSpec Spec.ArraySpec Spec.SpectraSpec Spec.ShrinkSpec Spec.HeapSpec Spec.SearchSpec Spec.FitRunSpec Spec.LimitSpec
  Spec.LimitBinsSpec Spec.FitLimitSpec.

(** Statistics [t] of the bins (shape [sh]) and penalty [q] of the first of the points with the
    smallest sum of the statistics and the penalty. *)
Definition best_bins (sh : list nat) (value : list Qc -> res (sres * Qc)) (points : list (list Qc)) (t : list nat -> Qc) (q : Qc) : Prop :=
  exists k v a, nth_error points k = Some v /\ value v = Ok (RArr a, q) /\
    (forall bin, valid_idx sh bin -> t bin = aget a bin) /\
    forall k' v' a' q', nth_error points k' = Some v' -> value v' = Ok (RArr a', q') ->
      (total sh (aget a) + q <= total sh (aget a') + q')%Qc /\ ((k' < k)%nat -> (total sh (aget a) + q < total sh (aget a') + q')%Qc).
(** The search of the fit keeps the statistics of the bins, as fit and statistic do. *)
Record searches_bins (su : setup) (u : fitter) (g : gsearch) (ls : list (list Qc)) (sh : list nat) : Prop := SearchesBins {
  sb_search : u_search u = Some g;
  sb_grid : grid_of (su_grid su) (gs_pars g) ls;
  sb_ready : ready g ls;
  sb_bins : gs_per_bin g = true /\ su_per_bin su = true /\ gs_spec g = sh /\ sh <> [] /\ Forall (fun d => 0 < d)%nat sh;
  sb_some : Forall (fun l => l <> []) ls /\ (gs_use_numpy g = true \/ ls <> []);
  sb_pars : Forall2 (fun q p => q_prior q = fp_prior p /\ q_sigma q = fp_sigma p) (su_pars su) (gs_pars g);
  sb_checked : u_checked u = true \/ fitter_checks su u = None }.
(** Calls of get_limit without a given minimum: scalings of the signal, threshold.  The
    scalings have the sign of the decays of the signal (or are near zero), and the fits give
    arrays of the shape [sh]. *)
Definition bcall : Type := list Qc * Qc.
Definition as_call (c : bcall) : lcall := (fst c, snd c, None).
Definition call_gives_bins (sh : list nat) (value : option spectra -> list Qc -> res (sres * Qc)) (s0 : spectra) (ls : list (list Qc)) (c : bcall) : Prop :=
  fst c <> [] /\ Forall (fun k => isclose k 0 = true \/ (0 < k / s_decays s0)%Qc) (fst c) /\
  forall sig v, In sig (signals s0 (fst c) None) -> In v (combinations ls) ->
    exists a q, value sig v = Ok (RArr a, q) /\ ashape a = sh.
(** What get_limit answers: [m] are the statistics of the bins of the best fit without signal,
    [fs] statistics and penalty of the best fit for each scaling; the answer is that of
    [limit_bins] (Spec/LimitBinsSpec.v) for them. *)
Definition limit_right_bins (sh : list nat) (value : option spectra -> list Qc -> res (sres * Qc)) (s0 : spectra) (points : list (list Qc)) (c : bcall) (answer : res Qc) : Prop :=
  exists (m : list nat -> Qc) (fs : list fitout),
    (exists q0, best_bins sh (value None) points m q0) /\
    (forall j, (j < length (fst c))%nat ->
       best_bins sh (value (at_scale s0 (nth j (fst c) 0%Qc))) points (bin_stat (nth j fs nofit)) (penalty_of (nth j fs nofit))) /\
    limit_bins sh (fst c) (length (fst c)) m fs (snd c) answer.
