(** What the pictures of a grid fit should show. *)
From Verif Require Import Model.Base Model.PyStr Model.NDArray Model.Param Model.Config Model.Spectra Model.FitParam Model.Minimise.
From Verif Require Import Model.FitConfig Model.ConfigFile Model.Store Model.Plot Model.Results.
From Verif Require Import Spec.ArraySpec Spec.SearchSpec Spec.PlotSpec.

(** The fit [f] has the value grids [ls]; at each position of the grid its readers report the
    statistic [R] and the penalty [P]. *)
Definition grid_results (lg : fpar -> res (list Qc)) (f : fresults) (ls : list (list Qc)) (R : list nat -> sres) (P : list nat -> Qc) : Prop :=
  let gs := fr_search f in
  gs_pars gs = gc_fpars (fr_fit f) /\ map fp_name (gs_pars gs) = gc_get_pars (fr_fit f) /\ NoDup (gc_get_pars (fr_fit f)) /\
  grid_of lg (gs_pars gs) ls /\ ready gs ls /\ Forall (fun l => l <> []) ls /\
  (forall idx, valid_idx (map (@length Qc) ls) idx -> reads gs idx (R idx) (P idx)).
(** The statistic at a position, summed over the spectral bins. *)
Definition stat_at (f : fresults) (R : list nat -> sres) (idx : list nat) : Qc :=
  answer_total (gs_per_bin (fr_search f)) (gs_spec (fr_search f)) (R idx).
(** The axis of a picture that belongs to a parameter of a fit. *)
Definition axis_of (p : fpar) : spar := SPar (fp_low p) (fp_high p) (fp_bins p).
(** The best fit of each parameter is its value at the position [idx]. *)
Definition best_at (f : fresults) (ls : list (list Qc)) (idx : list nat) : Prop :=
  Forall2 (fun p li => fp_best p = Some (nth (snd li) (fst li) 0%Qc) /\ fp_penalty p <> None) (gs_pars (fr_search f)) (combine ls idx).
