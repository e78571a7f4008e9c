(** What a calculation of a limit keeps, writes and logs, independent of how. *)
From Coq Require Import Permutation.
From Verif Require Import Model.Base Model.PyStr Model.NDArray Model.Param Model.Config Model.Spectra Model.FitParam Model.FitConfig.
From Verif Require Import Model.Minimise Model.Store Model.Results Model.Limit Model.LimitStore.
From Verif Require Import Spec.LimitSpec Spec.ConfigSpec Spec.StoreSpec Spec.ResultsSpec.
Local Open Scope nat_scope.

(** Results of a limit as the class makes them, for [n] values of the rate, and as get_limit leaves them. *)
Definition ready (lr : lresults) (n : nat) : Prop :=
  shaped lr n /\ limit_consistent lr /\ good_config (lr_fit lr) /\ sbuilt (lr_spec lr) /\ lr_spec lr <> [] /\
  NoDup (dkeys (sf_pars (lr_limit lr))) /\ Forall rate_entry (sf_pars (lr_limit lr)).
(** Every parameter has a width (else the log fails, see C45). *)
Definition widths (lr : lresults) : Prop :=
  Forall (fun ke => fp_sigma (cp_par (ge_par (snd ke))) <> None) (gc_pars (lr_fit lr)).
(** The fits made for a list of scalings, in order; a scaling close to zero is fitted without signal. *)
Fixpoint fits_run {St} (fit : St -> option Qc -> St * res fitsum) (s : St) (l : list Qc) (s' : St) (fs : list fitsum) : Prop :=
  match l, fs with
  | [], [] => s' = s
  | x :: l', f :: fs' =>
      exists s1, fit s (if isclose x 0 then None else Some x) = (s1, Ok f) /\ fits_run fit s1 l' s' fs'
  | _, _ => False
  end.
(** The summary of a fit names each parameter once, in any order; its grids are arrays. *)
Definition full_summary (pars : list string) (f : fitsum) : Prop :=
  exists l gs, fm_results f = Some (l, gs) /\ Permutation (map fst l) pars /\
    ashape (gs_stats gs) <> [] /\ ashape (gs_pen gs) <> [].
Definition summary_of (f : fitsum) (par : string) : Qc * Qc :=
  match fm_results f with
  | Some (l, _) => match dget par l with Some v => v | None => (0, 0)%Qc end
  | None => (0, 0)%Qc
  end.
Definition no_sum : fitsum := FitSum 0 None.
(** Best fits, penalty terms and statistics of the fit for scale [i]. *)
Definition best_at (fs : list fitsum) (i : nat) (par : string) : Qc := fst (summary_of (nth i fs no_sum) par).
Definition pen_at (fs : list fitsum) (i : nat) (par : string) : Qc := snd (summary_of (nth i fs no_sum) par).
Definition stat_at (fs : list fitsum) (i : nat) : Qc := fm_stat (nth i fs no_sum).
(** The full test statistic relative to [m]. *)
Definition full_at (pars : list string) (fs : list fitsum) (m : Qc) (i : nat) : Qc :=
  (stat_at fs i - m + qsum (map (pen_at fs i) pars))%Qc.

(** The first value of the statistic: given, or that of a fit without signal. *)
Definition reference {St} (fit : St -> option Qc -> St * res fitsum) (s : St) (given : option Qc) (s1 : St) (m : Qc) : Prop :=
  match given with
  | Some x => x <> 0%Qc /\ s1 = s /\ m = x
  | None => exists f, fit s None = (s1, Ok f) /\ fm_stat f = m
  end.

(** Only the file [path] was written, and reading it gives the results of the fits [fs]. *)
Definition stored_at (dec : nat -> string) (np_e : Qc) (d d' : disk) (path : string) (lr : lresults)
  (fs : list fitsum) (m : Qc) (with_fits : bool) : Prop :=
  (forall p, p <> path -> d' p = d p) /\
  exists lr', load_limit_results dec np_e (d' path) = Ok lr' /\
    lr_name lr' = lr_name lr /\ gc_get_pars (lr_fit lr') = gc_get_pars (lr_fit lr) /\
    keeps lr' (length fs) (best_at fs) (pen_at fs) (fun i => stat_at fs i - m)%Qc /\
    (forall r r', dget "rate" (sf_pars (lr_limit lr)) = Some r -> dget "rate" (sf_pars (lr_limit lr')) = Some r' ->
       fp_low (cp_par r') = fp_low (cp_par r) /\ fp_high (cp_par r') = fp_high (cp_par r) /\ fp_bins (cp_par r') = fp_bins (cp_par r)) /\
    length (lr_fits lr') = length fs /\
    (with_fits = true -> forall i l gs, i < length fs -> fm_results (nth i fs no_sum) = Some (l, gs) ->
       exists gs', nth_error (lr_fits lr') i = Some (Some gs') /\ gs_stats gs' = gs_stats gs /\ gs_pen gs' = gs_pen gs /\
         gs_resets gs' = gs_resets gs).

(** The name asked for, with the extension added unless it is there. *)
Definition asked_name (n : string) (path : string) : Prop :=
  (exists stem, n = stem ++ ".hdf5" /\ path = n)%string \/
  ((forall stem, n <> stem ++ ".hdf5") /\ path = n ++ ".hdf5")%string.
(** The log shows, for every parameter, its prior and width, the best fit and penalty term of the fit
    for scale [i], and its full statistic. *)
Definition shows (g : gconfig) (fs : list fitsum) (m : Qc) (rp : report) (i : nat) : Prop :=
  map fst (rp_pars rp) = gc_get_pars g /\
  (forall par best prior sigma pen, In (par, (best, prior, sigma, pen)) (rp_pars rp) -> best = best_at fs i par /\ pen = pen_at fs i par /\
     exists e, dget par (gc_pars g) = Some e /\ prior = fp_prior (cp_par (ge_par e)) /\ Some sigma = fp_sigma (cp_par (ge_par e))) /\
  rp_stat rp = full_at (gc_get_pars g) fs m i.
(** [k] is the first position of the greatest value of [f] from [b] on. *)
Definition first_greatest (f : nat -> Qc) (b n k : nat) : Prop :=
  b <= k < n /\ (forall j, b <= j < n -> (f j <= f k)%Qc) /\ (forall j, b <= j < k -> (f j < f k)%Qc).
(** A call of get_limit as it can be made: [m] is the reference statistic, [fs] are the fits made for
    the values [scales] of the rate, [s1] and [s2] the states of the fitter before and after them. *)
Definition limit_scene {St} (fit : St -> option Qc -> St * res fitsum) (lg : fpar -> res (list Qc)) (rq : request) (w : world (St := St))
  (scales : list Qc) (s1 : St) (m : Qc) (s2 : St) (fs : list fitsum) : Prop :=
  scales <> [] /\ ready (w_res w) (length scales) /\ widths (w_res w) /\ lr_get_scales lg (w_res w) = Ok scales /\
  reference fit (w_fit w) (rq_min rq) s1 m /\ fits_run fit s1 scales s2 fs /\
  Forall (full_summary (gc_get_pars (lr_fit (w_res w)))) fs.
(** The name made from the name of the results and the time. *)
Definition own_name (base now name : string) : string := (base ++ "/" ++ name ++ "_" ++ now ++ ".hdf5")%string.
(** The file for a limit that was found: the name asked for, else the results' own. *)
Definition place_asked (base now : string) (lr : lresults) (fname : option string) (path : string) : Prop :=
  match fname with
  | None | Some EmptyString => path = own_name base now (lr_name lr)
  | Some n => asked_name n path
  end.
