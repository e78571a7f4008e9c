(** Specification vocabulary for C95: what is loaded from any file. *)
From Verif Require Import Model.Base Model.PyStr Model.NDArray Model.Param Model.Config Model.Spectra Model.FitParam Model.FitConfig Model.Minimise Model.Store.
Local Open Scope string_scope.
Local Open Scope list_scope.

(** The numbers of bins of the parameters of a configuration, and of the axes of a spectrum. *)
Definition bins_of_fit (g : gconfig) : list nat := map (fun ke => Z.to_nat (fp_bins (cp_par (ge_par (snd ke))))) (gc_pars g).
Definition bins_of_spectrum (c : sconfig) : list nat := map (fun kp => Z.to_nat (sp_bins (snd kp))) c.
(** The arrays of fit results have one place for each point of the grid (with one statistic for
    each bin of the spectrum, or one alone). *)
Definition fits_its_configuration (fr : fresults) : Prop :=
  let gs := fr_search fr in
  gs_pars gs = map (fun ke => cp_par (ge_par (snd ke))) (gc_pars (fr_fit fr)) /\ gs_spec gs = bins_of_spectrum (fr_spec fr) /\
  ashape (gs_pen gs) = bins_of_fit (fr_fit fr) /\
  ashape (gs_stats gs) = bins_of_fit (fr_fit fr) ++ (if gs_per_bin gs then bins_of_spectrum (fr_spec fr) else []).
(** The arrays and the name are those of the file. *)
Definition holds_results (r : root) (fr : fresults) : Prop :=
  exists a m, dget "fit_results" (r_members r) = Some (HGroup a m) /\ dget "stats" m = Some (HData (gs_stats (fr_search fr))) /\
    dget "penalty_terms" m = Some (HData (gs_pen (fr_search fr))) /\
    exists name, dget "name" a = Some (AStr name) /\ gs_name (fr_search fr) = Some name.
