(** Projections of the statistics of a grid search: GridSearch.nd_project_stat and nd_project_stats,
    minimise.py:369-456.  The names of the spectral parameters, spectra_config.get_pars(), are an
    argument: [gsearch] keeps the shape of that configuration only. *)
From Verif Require Import Model.Base Model.PyStr Model.NDArray Model.Param Model.Spectra Model.FitParam Model.Minimise.
Local Open Scope string_scope.

(** [name in parameters], minimise.py:410, 453 *)
Definition named (parameters : list string) (n : string) : bool := existsb (String.eqb n) parameters.
(** The names the module binds: its imports and its two classes, minimise.py:3-8, 11, 54.  [itertools]
    is not among them. *)
Definition module_names : list string := ["numpy"; "FitResults"; "copy"; "abc"; "Minimiser"; "GridSearch"].
(** itertools.chain(fit_config.get_pars(), spectra_config.get_pars()), minimise.py:395-397, 408-409,
    451-452, in a module whose global names are [globals]; a NameError is the EException here *)
Definition chained (globals : list string) (g : gsearch) (snames : list string) : res (list string) :=
  if named globals "itertools" then Ok (map fp_name (gs_pars g) ++ snames)%list else Err EException.
(** minimise.py:394-398, 436-440 *)
Fixpoint check_names (globals : list string) (g : gsearch) (snames parameters : list string) : res unit :=
  match parameters with
  | [] => Ok tt
  | p :: parameters' => do names <- chained globals g snames; if named names p then check_names globals g snames parameters' else Err EIndexError
  end.
(** minimise.py:407-411: the axis is that of the whole array, whatever was summed before *)
Fixpoint sum_others (parameters names : list string) (axis : nat) (a : ndarray) : res ndarray :=
  match names with
  | [] => Ok a
  | n :: names' =>
      if named parameters n then sum_others parameters names' (S axis) a
      else do b <- asum_axis (Z.of_nat axis) a; sum_others parameters names' (S axis) b
  end.
(** minimise.py:449-455: [counter] counts the axes summed *)
Fixpoint sum_others_counted (parameters names : list string) (axis counter : nat) (a : ndarray) : res ndarray :=
  match names with
  | [] => Ok a
  | n :: names' =>
      if named parameters n then sum_others_counted parameters names' (S axis) counter a
      else do b <- asum_axis (Z.of_nat axis - Z.of_nat counter) a; sum_others_counted parameters names' (S axis) (S counter) b
  end.
(** minimise.py:369-412.  Line 399 asks whether the tuple of names is one of the names, which it never
    is: lines 400-404 are not reached. *)
Definition nd_project_stat (globals : list string) (g : gsearch) (snames : list string) (indices : list nat) (parameters : list string) : res ndarray :=
  do _ <- check_names globals g snames parameters;
  do a <- get_raw_stat g indices; do names <- chained globals g snames; sum_others parameters names 0 a.
(** minimise.py:414-456; lines 442-446 are not reached *)
Definition nd_project_stats (globals : list string) (g : gsearch) (snames parameters : list string) : res ndarray :=
  do _ <- check_names globals g snames parameters;
  do a <- get_raw_stats g []; do names <- chained globals g snames; sum_others_counted parameters names 0 0 a.
