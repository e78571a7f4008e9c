# Formal model of snoplusuk/echidna in Coq 8.16

## 1. Approach

* `rocq/theories/Model/*.v` – the model: total, computable Gallina functions that
  mirror the Python functions branch by branch. No proofs of properties. Every
  definition cites file and lines under `/repo/echidna`.
* `rocq/theories/Spec/*.v` – small specifications, written without using the model's
  helpers (marginals, "content of a bin = sum of weights", argmin, ...).
* `rocq/theories/Proofs/*.v` – lemmas.
* `rocq/theories/Properties/*.v` – only `Theorem ... Proof. exact lemma. Qed.`,
  non-vacuity `Example`s and `Print Assumptions`.

### Numbers
Python floats are rationals; the model computes with *exact* rationals `Qc`
(canonical rationals, Leibniz equality, computable), so witnesses evaluate with
`vm_compute`. Rounding of binary64 arithmetic is therefore abstracted away, except in
C55, C72 (bin centres), C76 and C77, which are about rounding and use a binary64 model. `inf`/`nan` are not
represented. Where the code uses logarithms, exponentials and square roots
(test statistics, decay arithmetic, resolutions) the model uses Coq's `R`.
Integers are `Z` (Python integers), array indices `nat`.

### Exceptions and mutation
A method that mutates `self` and may raise is a function `state -> state * result`:
the state returned together with an exception is the state *at the time of raise*, so
"rejected without effect" is a theorem, not an assumption. Exceptions are values of
`exn`.

### Arrays
A numpy array is a shape and an index function (`Model/NDArray.v`); `sum(axis)` fails
on an axis out of range, `reshape` goes through row-major ravel/unravel, slices have
Python semantics (negative and out-of-range bounds).

### Aliasing
Operations are first modelled on a spectrum that carries its configuration by value;
`Model/Heap.v` then puts configurations behind references, because
`Spectra.__init__` and `copy.copy` share the configuration object.

### External code
numpy/scipy/h5py/ROOT behaviour enters as functions with explicit arguments: spline
interpolation, random draws, weight functions of the smearers, the event stream
(a list of entries), the test statistic inside a fit, the HDF5 file (a map from group
names to attributes).

## 2. Plan per property

| id | model | proof idea |
|----|-------|------------|
| C01 | `Param.get_bin` | floor bounds |
| C02 | `Param.get_bin_centre(s)`, `get_bin_boundaries` | floor bounds, arange length |
| C03, C04 | `Spectra.fill` | case analysis; index in range |
| C05 | fold of `fill` | induction over histories; permutation |
| C06 | `Spectra.project` | induction on axes |
| C07, C08 | `nd_project`, `surface` | positive part plus refutation for >= 3 (4) dimensions |
| C09-C11 | `rebin` | ravel/unravel split; refutation of atomicity |
| C12-C14 | `shrink` | per axis floor/ceil; on every usable axis the kept bins and the new bounds are characterised (`ShrinkAnySpec.v`: edges rounded to the nearest multiple of the bin width); refutations for misaligned axes |
| C15, C16 | `cut`, `shrink_to_roi` | algebra |
| C17 | `scale` | field algebra |
| C18, C19 | `add` | case analysis; refutation for permuted parameters |
| C20 | operation histories | invariant by induction |
| C21 | `Heap` | frame theorem without sharing; refutation with sharing |
| C22-C24 | `Smear` | conservation per bin; refutation at the axis edge |
| C25, C26 | `Shift`, `Scale` | reindexing; normalisation algebra |
| C27, C28 | `FillSpectrum` | induction over the event stream |
| C29 | `DSExtract` | case analysis |
| C30-C35 | `TestStat` (R) | convexity of `x ln x`; sums |
| C36-C38 | `FitParam` | list lemmas |
| C39 | `PreConv` (strings) | string induction; refutations |
| C40-C43 | `Minimise` | odometer/recursion vs. row-major enumeration |
| C44, C45 | `Limit` | list induction |
| C46-C49 | `Store`, `Config` | round trips; refutations |
| C50 | `Config` | invariants |
| C51 | `Decay` (R) | field algebra |
| C52, C64 | `Fit` on top of `Heap` | invariant of the cache and of the spectra, kept by every evaluation; refutations |
| C53 | `FitPrepare` on top of `Heap` | effect of every call on the objects it may touch; refutations |
| C54 | `combine` | permutation of a fold |
| C55 | binary64 model | `SpecFloat` witness; Flocq proof for `low = 0` |
| C56 | `Spectra.get_background_name` | string lemmas |
| C57 | `FillSpectrum` | fold over the entries, failing entries without effect |
| C58 | `FitParam.set_par` | induction over the keywords; refutations |
| C59 | `Minimise.reset_grids` | array equalities; refutations |
| C60 | `ConfigFile` | round trip through the file map; refutations |
| C61, C62 | `Store` (fit and limit results) | round trip; refutations |
| C63 | `Store.load_ndarray` | induction over the attributes; refutations |
| C65 | `Smear`, `Shift`, `Spectra` | relation "contents multiplied by c > 0", kept by every step; refutations for random smearing and cut |
| C66 | `FitLimit` on top of `Fit`, `FitPrepare` | invariant: every stored convolution is a rescaling of the one made from the original spectrum, by C65; refutations |
| C67 | `FitLimit` (`fit`, `check_fitter`, one fit of a limit), `Minimise`, `Limit` | invariant of C66 through the grid search, then C45; uniqueness of the answer; the same for any number of global parameters with only the last applied to the signal, and TypeError for a parameter without prior width (`LimitWidths`); refutation for two global parameters; statistics per bin in `Properties/ScanBins` (specification `Spec/FitLimitBinsSpec`) |
| C68 | `Scripts` (paths and the six scripts), `Store`, `Combine` (files) | path lemmas by induction on strings, then the file round trip of C47 and the shape lemmas of each transformation |
| C69 | `PreMade` (path of `load_pre_made`, fit with `use_pre_made`), `PreConv`, `Scripts` | induction over the parameters on the path, on the script runs and on the grid; injectivity of the file names |
| C70 | `PreMade` (`load_pre_made`, `_funct` with `use_pre_made`), `Fit`, `Heap`, `Store` | simulation: cached objects stand for spectra on the axes of the data (invariant over the history), loaded objects are fresh; with C69 for the files |
| C71 | `FillScripts` (the three filling scripts), `FillSpectrum`, `Store`, `Combine` | induction over the files with the counting invariant of C27/C28, permutation of counts, then the file round trip of C47; refutations |
| C72 | `Plot` (ROOT and matplotlib histograms, what `SetBinContent` and `Axes.hist` do with the data), binary64 for the number of bin centres | induction over bins and rows, position of each centre between the edges, C06/C08 for the projections; rounding facts of Flocq; refutations |
| C73 | `Results` (accessors of LimitResults, graphs) over the results of `Store` | induction over the calls with the contents of the arrays as functions of scaling and name; refutation for the graph in units of sigma |
| C74 | `Results` (tables, graphs and per-bin pictures of a grid search) over `Minimise` and `Plot` | C43 for what the readers report, the table lemma of C72 in both orders, C order of the flattened grid; refutations |
| C75 | `FitLimit` with several signals (`Spec/ManySpec`: operations `MLimit`, `MCall`, `MSelect`, `MScale`, `MEval`) | the invariant of C66 with one level for each signal (`Proofs/ManyScan`, `ManyLimits`), induction over the operations; refutations for a given minimum and for shared names |
| C76 | the numbers of fill, add, shrink, cut, rebin and sums in binary64 (`Model/FloatArray`, on Flocq), every sum in an arbitrary order (a tree) | refinement of the exact operations (`Spec/FloatRunSpec`): integers up to 2^53 are binary64 numbers, so no partial sum is rounded (`Proofs/FloatSums`, `FloatRun`, `FloatCount`); the exact operations are those of `Model/Spectra` (C76_methods) |
| C77 | the same with scaling and any weights | the relation "within (1 + 2^-53)^k", closed under +, *, / (`Proofs/FloatSums`, `FloatNear`), induction over the history; repeated scaling without assumptions on the way in `Proofs/FloatScale` |
| C78 | `Check`: `check_values`, `check_fit_config`, the checks while a Fit is built, warnings as errors, over `R` with the grids of C36 | characterisation of rounding to 12 decimals (`Proofs/CheckLemmas`), induction over configurations; refutations for prior 0 and global parameters |
| C79 | `LimitStore`: `get_limit` with its LimitResults, file names, files and log, on top of `Results` (C73) and `Store` (C62) | invariant over the loop and over histories of calls (`Proofs/LimitStoreLemmas`: `scan_l`, `calls_ready`), round trip through the file; refutations for the name asked for, store_spectra and the log |
| C80 | `Logging`: the root logger of Python's logging, `start_logging`, the dispatching formatter, histories of starts and messages | invariant over histories (`Proofs/LoggingLemmas`: `said_l`, `spoiled_run`), exact contents of file and terminal; refutations for early messages and failed starts |
| C81 | `PlotGrab`: `get_array_errors` over the reals with -inf and nan, broadcasting of the flat result, the bounds of the KamLAND-Zen script | algebra of exp and ln (`Proofs/PlotGrabLemmas`); refutations for several dimensions, fractions and directions |
| C82 | `FloatAxis`: width, lookup, centres (numpy.arange) and boundaries (numpy.linspace) of an axis in binary64, together with the fill index of C55 | error bounds of each rounding in units of the bin width (`Proofs/FloatAxisLemmas`, `FloatAxisCentres`); witnesses at edges and on axes that are too narrow |
| C83 | `FitConfig`, `ConfigFile`: the three load functions on any tree of dictionaries; `Spec/ReadSpec` says which dictionaries describe which parameters | both directions by induction over the entries (`Proofs/ReadLemmas`); the exceptions for a good prefix followed by a wrong entry |
| C84 | `FitPrepare`: the setters of a fit, append_fixed_background, fit without floating backgrounds; `Spec/FitMethodSpec` | the heap lemmas of C53: one method changes one configuration object and one object; induction over the list of backgrounds |
| C85 | `AxisSet`: set_par of an axis over any list of keywords, get_unit; `Spec/AxisSetSpec` | induction over the keywords; permutations of a list without repeated keys |
| C86 | `Statistics`: get_statistics on the fit of `FitLimit` (what fit() returns is now a number or a pair), numpy.array of the results; `Spec/StatisticsSpec` | the invariant of C66/C67 kept by every scaling; a smaller invariant for fits without floating backgrounds; statistics per bin in `Properties/StatisticsBins` |
| C87 | set_stat, set_penalty_term, set_stats, set_penalty_terms and the getters at indices of `Minimise`; indices from 0; `Spec/GridPointSpec` states numpy's broadcasting as relations and the last write to a point | case by case; induction over histories of writes |
| C88 | nd_project_stat, nd_project_stats in `GridProject`, with the global names of the module and the names of the spectral parameters as arguments; indices from 0 | refuted for the module as it is (`itertools` is not imported); with the name bound: the loop with a counter by induction with a mask of axes still there, the loop without one through the drift lemma of C28's loop |
| C89 | `FloatShrink`: the arithmetic of shrink for one axis in binary64, with the correction steps of lines 497-524 and Python 2's round; bin numbers are integers (the code has the high one as a float) | error bounds of each rounding in bin widths; the corrections are shown to undo every truncation that went wrong; partial because refuted on axes that are not aligned |
| C90 | `ChiPlot`: the functions of plot_chi_squared.py and plot_chi_squared_root.py and the first half of plot_root.py as functions from the arrays of the objects to what is drawn | direct; the filling loops by induction; refuted for the last row and column (pcolormesh drops them), units, saving, spectral_plot |
| C91 | `Crash`: the dump functions as sequences of h5py calls; an interruption keeps a prefix of them. Damage of the HDF5 file itself (loss of power) is not modelled | refinement (the whole sequence gives the file of `Store`) and induction over histories of interrupted saves: each reader gets what the file held before or an error; refuted for an old-format spectrum at the root, for a retry that appends without overwrite, and for dump_ndarray |
| C92 | `Weights`: calc_gaussian, calc_poisson_energy with its memo table, get_sigma and set_resolution of EnergySmearLY and EnergySmearRes, and the weights of a window, over the reals. Logarithms of numbers that are not positive and a sigma of 0 are not modelled | invariant of the memo table over histories; series of exp for the Poisson sums; the Gaussian integral by differentiation under the integral sign (Coquelicot); refuted for EnergySmearRes with Poisson statistics, which ignores its resolution |
| C93 | `FitLimit` (`fitter_checks`, `check_fitter`, `fit_all`), `FitPrepare` (`check_all_spectra`); `Spec/FitCheckSpec` | the checks characterised as a predicate on fits, in both directions; witnesses for the check made once and for floating backgrounds |
| C94 | `Store` (`load`, `load_old`, `old_pars`, `spar_set`); `Spec/OldFileSpec` (an old file described by its entries, in any order) | invariant of the attributes read so far, then the order of the axes; witness where attributes listed by name exchange the axes |
| C95 | `Store` (`load_fit_results`, `load_limit_results`, `load`), `Minimise` (`set_stats`, `set_penalty_terms`); `Spec/LoadShapeSpec` | inversion of a successful load of an arbitrary file; witnesses for limit results and spectra of wrong size |
| C96 | `TestStat` (`compute_statistic`); `Spec/StatOrderSpec` | the statistic as a sum of one term per bin; log sum inequality and Cauchy-Schwarz for two bins, induction over groups; monotony of each term in the expected content |
| C97 | `Spectra` (`s_add`, `rebin`, `shrink`, `project`, `nd_project`), `Smear` (`weighted_smear`), `Shift` (`shift_by_bin`, `shift_axis`, `scale_axis`); `Spec/AddUpSpec` | a relation between two arrays and their sum is kept by every array operation, fill and slice; the fills of a bin are its contents times a list that does not depend on them, so contents that cancel are covered; proved for every content (shift: contents not below zero, `C97_shift_negative_refuted`). Shifts and stretches with interpolation and cut do not add up: `C97_interpolated_shift_refuted`, `C97_stretch_refuted`, `C97_cut_refuted` |
| C98 | `Spectra` (`shrink`); `Spec/ShrinkSpec`, `Spec/ShrinkStepsSpec` | the bins kept by either step are those with at least a hundredth of a bin in the requested range (C12); on the shrunk axis the same bins are asked for, counted from its first one; first bins add. Proved for axes that start at a multiple of the bin width; false on others (`C98_steps_refuted`) |
| C99 | `Spectra` (`rebin`, `project`), `Smear` (`weighted_smear`); `Spec/RebinSpec`, `Spec/SmearSpec` | both sides are sums of the original bins chosen by a condition on their indices (C06, C09, C22); sums over the target bins are pushed back to the source bins and compared condition by condition |
| C100 | `DSExtract` (`mk_dsx`, `valid_ntuple`, `fv_cut_ntuple`, `valid_root_mc`, `valid_root_ev`); `Spec/CutPositionSpec` | cases over the kinds and flags; the distance is compared through squares (C29) |
| C101 | `Shift` (`shift_axis`, `shift_by_bin`), `Spectra` (`project`); `Spec/ShiftSpec` | a shift moves the contents along its axis (C25); replacing indices on two axes commutes; the projection is re-indexed along the shifted axis |

## 3. Trusted base

* Coq 8.16.1's kernel, with its virtual machine (`vm_compute` is used for witnesses and
  examples). No plugin of its own, no kernel check switched off, no axiom added.
* The reading of the Python sources that `Model/` expresses, together with the
  specifications in `Spec/`, which define the words used in the theorems.
* The axioms below. All of them are the standard library's axioms of the real numbers
  (`Reals`), classical logic as used by `Reals`, and functional extensionality as used by
  `Reals`. They occur only in the theorems about code modelled with `R` and in C55, C72, C76
  and C77, where Flocq's binary64 format is used (Flocq adds no axiom of its own). The integral of C92 is Coquelicot's
  (`is_RInt`; Coquelicot adds no axiom of its own either).
  Everything about spectra, configurations, parameters, the fit, the minimiser, limits,
  the file formats and the heap is axiom free.

### 3.1 What `Print Assumptions` lists

Generated by `tools/assumptions.py` from the compiled development. Names:
`sig_forall_dec`, `sig_not_dec` are `ClassicalDedekindReals.*`.

<!-- assumptions -->
* **no axioms** (528 theorems): C01_get_bin_partition, C01_get_bin_outside, C01_get_bin_upper_edge, C01_plain, C02_centre_roundtrip, C02_centre_midpoint, C02_centre_invalid, C02_boundaries, C02_centres, C03_fill_one_bin, C04_fill_unknown, C04_fill_missing, C04_fill_out_of_range, C04_fill_rejected, C05_history_from_empty, C05_history, C05_accepted_spec, C05_inside_spec, C05_order, C06_project, C06_project_unknown, C07_nd_project_characterised, C07_nd_project_partial, C07_nd_project_refuted, C08_surface_characterised, C08_surface_partial, C08_surface_refuted, C09_rebin, C10_rebin_compose, C10_rebin_identity, C11_rebin_rejected_data, C11_rebin_rejected_partial, C11_rebin_rejected_refuted, C12_shrink_partial, C12_shrink_edges_partial, C12_shrink_any, C12_sliver_refuted, C12_width_refuted, C12_close_refuted, C12_shrink_refuted, C13_shrink_identity_partial, C13_shrink_current, C13_shrink_identity_refuted, C14_shrink_rejected, C14_shrink_unknown, C14_shrink_unknown_index, C14_shrink_outside, C15_cut, C15_cut_ratio, C15_cut_empty, C16_shrink_to_roi, C17_scale, C17_scale_compose, C17_scale_inverse, C17_scale_zero, C18_add, C18_add_rejected, C18_add_comm, C19_add_regions_partial, C19_add_regions_names_partial, C19_add_regions_refuted, C20_history, C20_history_nonneg, C21_frame_partial, C21_history_partial, C21_own_config_partial, C21_no_resize_partial, C21_reachable, C21_shared, C21_copy_fill_refuted, C21_derived_shrink_refuted, C21_shared_rebin_refuted, C21_roi_refuted, C22_smear_kernel, C22_smear_total, C22_smear_conserved, C22_smear_unknown, C22_num_sigma, C22_window, C22_last_bin_lost_refuted, C22_last_bin_never_filled_refuted, C23_random_histogram, C23_random_bound, C23_radial_refuted, C23_unknown, C25_shift_bins, C25_shift_zero, C25_shift_twice, C25_negative_refuted, C26_shift_interpolated, C26_scale, C26_scale_factor, C26_shift_total, C26_scale_total, C27_ntuple_new, C27_ntuple_append, C27_refused, C27_raises, C28_bipo_partial, C28_bipo_append_partial, C28_last_entry_refuted, C37_index_of_value, C37_first_position, C37_get_bin, C37_linear_values, C37_cached, C37_get_bin_other, C37_unset, C37_get_bin_refuted, C38_rate, C38_last_rate_wins, C38_unset, C39_name, C39_idempotent, C39_distinct_partial, C39_unset, C39_integers_refuted, C39_foreign_token_refuted, C39_no_extension_refuted, C39_resolution_kinds_refuted, C40_find_minimum, C40_numpy_minimum, C40_agree, C40_unique, C40_empty, C40_no_axes, C41_visits, C41_visits_all, C41_combinations, C41_complete, C41_once, C41_no_grid, C41_new, C42_minimum, C42_repeated_values_refuted, C42_wrong_length_refuted, C43_read_back, C43_penalty_at, C43_raw_stats_at, C43_raw_stats_at_squeezed, C43_raw_stats_at_ones_refuted, C43_missing_value, C43_raw_stats_at_refuted, C43_raw_stats_keyword_refuted, C44_first_crossing, C44_found_iff, C44_incompatible, C44_empty, C44_number, C44_monotone, C44_smaller_found, C44_excluded, C45_limit_partial, C45_monotone, C45_raises_first, C45_raises_later, C45_penalty_refuted, C45_zero_minimum_ignored, C45_no_width_refuted, C45_no_width, C45_per_bin_refuted, C45_per_bin, C45_per_bin_first, C45_per_bin_given, C45_per_bin_error_refuted, C46_roundtrip_partial, C46_other_refuted, C46_colon_refuted, C46_comma_refuted, C46_semicolon_refuted, C46_empty_refuted, C47_load_partial, C47_exact, C47_succeeds, C47_frame, C47_style_refuted, C47_empty_fit_refuted, C47_fit_refuted, C48_frame, C48_refused, C48_only, C48_others, C48_stays, C48_load, C48_load_fit, C48_load_limit, C48_object_refuted, C48_failing_refuted, C48_half_written_refuted, C49_spectra, C49_constructed, C49_fit_partial, C49_fit_exact, C49_global_partial, C49_global_order, C49_penalty_refuted, C49_order_refuted, C49_name_refuted, C49_globals_only_refuted, C49_no_dimension, C49_empty_refuted, C49_globals_only, C49_resolution_refuted, C50_index, C50_entry, C50_lengths, C50_partition, C50_add_par, C50_add_par_type, C50_add_spectra, C50_add_global, C50_range, C50_spectra_index, C50_spectra_entry, C52_history_partial, C52_signal_last, C52_bins, C52_kinds, C52_globals_refuted, C52_names_refuted, C53_region, C53_roi, C53_binning, C53_fixed, C53_originals_partial, C53_check, C53_ready, C53_originals_refuted, C53_shared_refuted, C53_widths_refuted, C53_signal_refuted, C53_no_shrink_refuted, C53_roi_length_refuted, C54_total, C54_order, C54_rejected, C54_order_refuted, C56_name_set, C56_name_mc_partial, C56_name_mix_partial, C56_name_reco_partial, C56_name_stable, C56_name_error, C56_name_refuted, C57_root_mc, C57_root_reco, C57_root_unknown_type, C57_new_mc, C57_new_reco, C57_refused, C57_raises_mc, C57_raises_reco, C58_set_par, C58_set_bins, C58_fresh_grid, C58_success_clears_grid, C58_exact, C58_refused, C58_list, C58_rejected_partial, C58_rejected_refuted, C58_none_refuted, C59_reset_per_bin, C59_reset_refuted, C60_spectra, C60_fit, C60_global, C60_other_files, C60_default_names, C60_blank_names_refuted, C60_blank_name_refuted, C61_roundtrip_partial, C61_name_refuted, C61_globals_only_refuted, C61_order_refuted, C62_roundtrip_partial, C62_per_bin_refuted, C63_roundtrip_partial, C63_none_refuted, C63_stale_refuted, C63_size, C64_refused, C64_objective_partial, C64_search_partial, C64_zero_rate_refuted, C64_printing_refuted, C64_rebin_refuted, C65_smear, C65_shift, C65_stretch, C65_shrink, C65_rebin, C65_project, C65_parameters, C65_random_refuted, C65_cut_refuted, C66_history_partial, C66_signal_last, C66_shared_refuted, C66_zero_refuted, C67_limit_partial, C67_one_answer, C67_repeat_partial, C67_limit_last, C67_repeat_last, C67_no_width, C67_globals_refuted, C67_refused, C67_per_bin, C67_per_bin_last, C67_per_bin_one_answer, C67_per_bin_repeat, C68_scaled, C68_shifted, C68_energy_resolution, C68_energy_light_yield, C68_smeared, C68_shrunk, C68_rebinned, C68_one_file, C68_scaled_bare_name, C68_shrunk_bare_name, C68_rebinned_no_extension, C68_rebinned_no_bins, C68_scaled_beside_refuted, C68_shrunk_beside_refuted, C68_shifts_kept_refuted, C69_location, C69_prepared, C69_distinct, C69_grid, C69_shift_refuted, C69_same_kind_refuted, C69_scaled_before_refuted, C69_refused, C69_directory_refuted, C69_no_slash_refuted, C69_light_yield_refuted, C70_history_partial, C70_originals, C70_no_global, C70_scripts, C70_own_refuted, C71_ntuple, C71_list_partial, C71_list_refuted, C71_list_clash_refuted, C71_combined_partial, C71_order, C71_combined_refuted, C71_folder_partial, C71_folder_refuted, C71_radius, C71_nothing, C71_root_refuted, C72_root_projection, C72_mpl_projection, C72_spectral, C72_spectral_limit_partial, C72_spectral_axes, C72_spectral_differ, C72_limit_refuted, C72_root_surface_partial, C72_root_surface_transposed, C72_mpl_surface_partial, C72_root_surface_refuted, C73_new, C73_history, C73_refuses, C73_limit_stat_refuted, C73_graphs, C73_sigma_partial, C73_no_sigma_refuted, C73_drawing_refuted, C74_raw_table_partial, C74_table_partial, C74_graph_partial, C74_per_bin, C74_per_bin_surface_partial, C74_table_refuted, C74_keyword_refuted, C74_graph_refuted, C74_penalty_refuted, C74_per_bin_surface_refuted, C74_graph_witness_refuted, C75_limits_partial, C75_order_partial, C75_selected_partial, C75_limits_last, C75_no_width, C75_selected_last, C75_minimum_refuted, C75_names_refuted, C76_methods, C77_depth, C79_stored_partial, C79_history, C79_raises, C79_asked_name_refuted, C79_spectra_refuted, C79_log_partial, C79_no_width_refuted, C79_log_refuted, C80_once_partial, C80_format, C80_cautious, C80_early_refuted, C80_failed_start_refuted, C80_start_raises, C80_started_never_raises, C80_own_file, C80_short_name_refuted, C80_module, C83_spectra, C83_fit, C83_global, C83_both, C83_spectra_wrong, C83_fit_wrong, C83_global_wrong, C83_both_wrong, C83_section, C83_file, C84_set, C84_set_missing, C84_checked, C84_floating, C84_floating_stop, C84_append, C84_append_none, C84_roi, C84_roi_wrong, C84_fit, C84_fit_none, C84_new_roi, C84_new_missing, C85_set, C85_order, C85_dict, C85_wrong, C85_width, C85_unit, C85_wrong_refuted, C85_unit_refuted, C86_rows_partial, C86_rows_last, C86_array_limit, C86_fixed, C86_per_bin, C86_per_bin_last, C87_set_stat, C87_set_stat_refused, C87_set_penalty, C87_set_arrays, C87_get, C87_get_stat, C87_history, C88_refuted, C88_unknown, C88_stats_partial, C88_stats_refuted, C88_stat, C88_stat_all, C88_stat_refuted, C90_signal, C90_units_refuted, C90_map_partial, C90_turn_on_partial, C90_turn_on_refused, C90_push_pull_partial, C90_last_refuted, C90_penalty, C90_penalty_saved_refuted, C90_per_bin, C90_root_spectral_refuted, C91_complete, C91_spectrum_partial, C91_fit, C91_limit, C91_raised, C91_raised_fit, C91_others, C91_lost, C91_retry, C91_retry_anew, C91_retry_refuted, C91_old_refuted, C91_object_refuted, C92_unset_refuted, C93_refused, C93_accepted, C93_reasons, C93_set_minimiser, C93_ready_after, C93_again_refuted, C93_floating_refuted, C94_loads_partial, C94_one_order, C94_in_order, C94_style, C94_no_file, C94_neither, C94_order_refuted, C95_fit_results, C95_fit_refused, C95_limit_results_partial, C95_limit_size_refuted, C95_spectrum_size_refuted, C95_no_file, C95_no_group, C97_rebin, C97_shrink, C97_refused, C97_smear, C97_shift_partial, C97_project, C97_nd_project, C97_shift_negative_refuted, C97_interpolated_shift_refuted, C97_stretch_refuted, C97_cut_refuted, C98_steps_partial, C98_order_partial, C98_steps_refuted, C99_project, C99_smear, C101_order, C101_project

* **`ClassicalDedekindReals.sig_forall_dec`, `ClassicalDedekindReals.sig_not_dec`, `FunctionalExtensionality.functional_extensionality_dep`** (30 theorems): C24_light_yield, C24_resolution, C24_resolution_better, C24_resolution_default, C24_resolution_usable, C24_resolution_equal_refuted, C29_energy_reco, C29_radial_reco, C29_mc, C29_external_energy, C29_no_radius, C29_zero_radius_refuted, C29_radial3, C29_root_mc, C29_root_reco, C29_root_external, C29_root_external_no_trigger_refuted, C29_values, C51_mass_half_life, C51_half_life_mass, C51_atoms, C51_atoms_target, C51_atoms_reject, C51_atoms_positive, C51_negative, C81_size, C100_ntuple, C100_no_radius, C100_root_true, C100_root_reco

* **`ClassicalDedekindReals.sig_forall_dec`, `FunctionalExtensionality.functional_extensionality_dep`** (25 theorems): C24_light_yield_better, C24_light_yield_default, C24_light_yield_equal_refuted, C24_set_light_yield, C24_set_resolution, C29_external_radial_mc, C29_unknown_name, C29_zradial_refuted, C35_mixed, C35_integers_exact, C35_integers_floor, C35_zero_any, C35_penalty, C35_penalty_shape, C35_zero_sigma, C35_integers_refuted, C36_rint, C51_activity_counts, C51_counts_activity, C51_new, C51_new_reject, C51_zero_refuted, C76_exact, C77_bound, C100_made

* **`ClassicalDedekindReals.sig_forall_dec`, `ClassicalDedekindReals.sig_not_dec`, `Classical_Prop.classic`, `FunctionalExtensionality.functional_extensionality_dep`** (108 theorems): C30_chi, C30_ll, C30_neyman_pearson, C30_chi_up, C31_chi_is_twice_ll, C31_differences_agree, C31_formulas, C32_total_is_sum, C32_extended_ll_partial, C32_chi_up_partial, C32_extended_ll_refuted, C32_chi_up_refuted, C33_malformed, C33_wellformed_partial, C34_unchanged_partial, C34_twice, C34_unchanged_refuted, C36_linear, C36_single_bin, C36_logscale, C36_logscale_nonpositive_low, C36_logscale_deviation, C36_logscale_deviation_length_partial, C36_logscale_deviation_length_refuted, C36_logscale_deviation_prior_refuted, C51_half_life_activity, C51_activity_half_life, C51_half_life_counts, C51_counts_half_life, C51_counts_mass, C51_mass_counts, C51_monotone, C51_livetime, C51_mass, C51_zero, C55_exact_partial, C55_zero_partial, C55_narrow_partial, C55_away_partial, C55_monotone, C55_outside, C55_refuted, C55_positive_low_refuted, C72_float_partial, C72_float_refuted, C76_counts, C76_history, C76_sum, C76_axis, C76_limit_refuted, C76_order_refuted, C77_history, C77_sum, C77_scalings, C77_back_refuted, C78_check, C78_cautious, C78_error, C78_config, C78_fit, C78_linear_odd, C78_linear_even, C78_logscale_odd, C78_deviation, C78_rate, C78_rate_grid, C78_zero, C78_zero_refuted, C78_global_refuted, C81_errors_partial, C81_no_error, C81_fraction_refuted, C81_bounds_partial, C81_dims_refuted, C81_direction_refuted, C82_lookup, C82_monotone, C82_centre, C82_centres, C82_boundaries, C82_between, C82_edge_refuted, C82_top_refuted, C82_coarse_refuted, C82_coarse_centres_refuted, C82_missing_centre_refuted, C89_shrink_partial, C89_boundaries, C89_whole, C89_unaligned_refuted, C90_root_half_life, C90_root_mass, C92_gauss, C92_poisson, C92_history, C92_positive, C92_gauss_shape, C92_gauss_one, C92_poisson_one, C92_poisson_mean, C92_poisson_variance, C92_ly_width_partial, C92_res_refuted, C92_res_width_refuted, C96_order, C96_parts, C96_merging, C96_closer
<!-- end -->

### 3.2 Which code is modelled

`tools/coverage.py` lists the functions of the package whose lines no comment of the
model cites.

| file | modelled | not modelled |
|------|----------|--------------|
| `core/parameter.py` | binning of `SpectraParameter`, value grids, pulls, `set_par`, keywords, `to_dict`, `apply_to` of the four kinds, pre-convolved file names | documentation helpers |
| `core/config.py` | all three configuration classes: construction, lookup, dump, load, files | - |
| `core/spectra.py` | every method | the text of log and error messages |
| `core/smear.py` | weighted and random smearing of the three classes, resolutions | the numerical value of the Gaussian/Poisson weights (an argument of the model; in C24 the resolution formulas) |
| `core/shift.py`, `core/scale.py` | everything | `scipy.interpolate` (an argument) |
| `core/fill_spectrum.py` | everything | reading ROOT files and ntuples (a list of entries is given) |
| `core/dsextract.py` | every cut and value | the ROOT/RAT objects (records) |
| `fit/test_statistic.py` | all six classes | overflow to `inf`, `nan` |
| `output/plot.py`, `output/plot_root.py` | axes and bin contents of `plot_projection`, `plot_surface`, `spectral_plot` (matplotlib) and of all plots of results | colours, labels, the error band, the chi squared panel, the canvas; `plot_root.spectral_plot` raises (C90) |
| `fit/minimise.py` | GridSearch | — |
| `fit/fit.py` | preparation, `_funct`, `load_pre_made`, `check_fitter`, `set_minimiser`, `fit`, `remove_signal` | messages |
| `fit/fit_results.py` | LimitResults: data, reading and setting of values, graphs; the values of `get_summary` | getters and setters of whole configurations |
| `limit/limit.py` | `get_limit`, `get_array_limit`, `get_limit` with statistics, `__init__` and each fit of a limit on the fit of the model, storing of results and logging | contents of stored spectra |
| `calc/decay.py` | DBIsotope and its conversions | constants of nature are reals of the model |
| `output/store.py` | every function | h5py (a file is a map of groups, attributes and datasets), the text of JSON and YAML (values are kept) |
| `scripts/combine_hdf5.py`, `dump_scaled.py`, `dump_shifted.py`, `dump_smeared.py`, `dump_smeared_energy.py`, `dump_shrink.py`, `rebin.py`, `dump_spectra_ntuple.py`, `dump_spectra_root.py`, `multi_ntuple_spectrum.py` | everything from the parsed arguments on | argument parsing, messages, drawing; os.listdir and csv (arguments of the model) |
| `utilities.py` | `start_logging`, `DispatchingFormatter`, `get_array_errors` | `Timer` (a clock), colours |
| `scripts/klz_majoron_limits.py` | the plot-grab errors of spectra | the rest (raises, see 4) |
| `output/plot_chi_squared*.py` | the numbers drawn by every function (`ChiPlot`); pcolormesh of matplotlib before 3.3 is trusted | colours, levels and their failures, contours, `main` (imports modules that do not exist) |
| other `scripts/` | - | plotting, command lines |

### 3.3 Simplifications

* Floats are exact (`Qc` or `R`), except in C55, C72, C76 and C77. In C76 and C77 the order in
  which numpy adds (pairwise summation, blocks) is an argument of the model, one tree for each
  sum, and the theorems quantify over it. Comparisons that depend on rounding
  therefore are those of exact arithmetic; `inf` and `nan` do not occur. A division of
  numpy floats by zero is shown as `ZeroDivisionError` where Python floats raise it and
  where numpy would give `nan` (said at the definition).
* `dict` iteration order: dictionaries are association lists in insertion order. Where
  Python 2's plain `dict` has an arbitrary order the theorems quantify over the order or
  hold for every list.
* External functions are arguments of the model and the theorems hold for all of them:
  smearing weights, spline interpolation, random draws, the statistic and the penalty
  inside a fit, logarithmic grids over `Qc`, conversion of numbers to and from text.
* Logging and printing are left out.

### 3.4 Test against wrong programs

`tools/seed.py` applies the edits of `seeded/mutations.py` to a scratch copy of the model
and replays the proofs; `seeded/LOG.jsonl` has one line per attempt. A theorem counts as
failed when its own proof or one it rests on no longer replays; this shows that the theorem
depends on the edited behaviour, and for the `_refuted` theorems and `Example`s (which
compute) that the statement itself became false.

## 4. What the proofs found

Each is a `_refuted` theorem (or stated as such in the note of the claim in
`MANIFEST.json`) unless marked with (r): found while reading.

Spectra
* `get_bin` accepts `x == high` and returns the index after the last bin; `fill` rejects it.
* `fill` in binary64 can raise IndexError for a value just below the upper bound when the
  axis does not start at 0 (C55).
* `nd_project` sums the wrong axes when two or more are dropped; `surface` is wrong from
  four dimensions on (C07, C08).
* `rebin` is not atomic: a rejected call has already renumbered earlier axes (C11).
* `shrink` rounds to multiples of the bin width, so an axis that does not start at one is
  moved even by `shrink()`; bins overlapped by less than 1% are dropped (C12, C13).  On such an
  axis a bin of which 40% was asked for can be dropped and the bin width change
  (C12_width_refuted).  An upper bound above the current one by a rounding error is accepted
  and can leave one bin more in the configuration than in the data (C12_close_refuted).
* `add` compares parameters by name but adds contents by position (C19); its tolerance is
  relative to the added spectrum, so merging depends on the order (C54).
* `copy.copy`, smeared, shifted and scaled versions and spectra made with one configuration
  object share it: shrinking or rebinning one corrupts the others (C21).
* `get_background_name` looks for the markers in a fixed order (C56).

Smearing, shifting, filling
* The content of the last bin disappears when the window is narrower than half a bin (C22).
* `RadialSmear.random_smear` raises TypeError on every non-empty spectrum (C23);
  `calc_smear_ly(cur, cur)` raises ZeroDivisionError (C24).
* `shift_by_bin` drops lines of bins with non-positive sum (C25).
* The last entry of a stream is never counted (C28); a fiducial radius 0 means no cut; the
  `zradial3` classes cannot be constructed by name (C29).

Statistics, parameters, minimiser
* `BakerCousinsChiUp` per bin raises when a bin exceeds its expectation; `ExtendedLL`
  differs between the total and the sum over bins (C32, C33); the statistics alter their
  arguments when a value is below 1e-34 (C34); penalties of integers use floor division and
  `ExtendedLL`'s penalty is not halved (C35).
* `logscale_deviation` grids may miss the prior and have the wrong length (C36).
* `set_par` keeps the keywords set before a rejected one (C58).
* `to_dict` stores the best fit as penalty term (C49).
* `get_raw_stats_at` (not per bin) and `get_raw_stats(**kw)` always raise (C43);
  `nd_project_stat(s)` use `itertools` without importing it, and would sum wrong axes if they did (C88); `reset_grids` makes an array
  of the wrong shape (C59).
* File names of pre-convolved spectra are not distinct for all values (C39).

Scripts
* `dump_scaled` and `dump_shrink` given a file without directory write into the root
  directory; `dump_shifted` uses one name for all shifts, so that a second shift replaces
  the first (C68).
* A fit with `use_pre_made` never finds shifted spectra (`dump_shifted` uses another name and
  folder), nor light yields up to 10 (written `8ly`, looked up `8rs`), nor files whose name
  already has a value of the same systematic; two parameters of one kind on different
  dimensions give one file for different values; a directory whose name contains that of a
  dimension raises ValueError; a base directory needs a slash at its end and a file without
  directory is looked up in the root directory (C69). `set_pre_made_dir` sets an attribute
  that nothing reads, and nothing sets `_orig_num_decays`, which `load_pre_made` reads (r).
* A convolved spectrum loaded from a file with longer axes than the data: an own parameter
  of the background that is not a rate is first applied to the whole axis and, after the cut
  to the data has also cut the axes of the loaded object, to its first bins; two evaluations
  at the same values differ (C70).
* `dump_spectra_root` never writes a file: `plot_spectrum` calls `config.getpars()`, which does
  not exist, before `store.dump`; with a text file it calls `rfind` on a list (C71).
* `multi_ntuple_spectrum -n Te130`, or a directory of such a name, ends with ValueError after
  everything has been filled (the name must contain mc, mix or reco) and destroys the file of
  that name; the default name loses its last letter if the path has no slash at its end (C71).
* `dump_spectra_ntuple -r` takes a text file with exactly two rows, the paths in the first
  one; of two paths in two rows only the first is read; ntuples of the same name in
  different directories overwrite each other (C71).
- `plot._produce_axis` asks `numpy.arange(low, high, width)` for the bin centres; for some axes
  (13 bins from 0 to 15, 49 bins from 0 to 1) the rounded width gives one centre too many and
  every matplotlib plot of that axis raises ValueError (C72, in binary64).
* `check_values` divides by the prior, so a prior of 0 (any shift) is always reported as not
  in the values; in cautious mode such a parameter cannot be fitted. Global parameters are
  not checked although the message speaks of all parameters (C78).
* A bin stops counting at 2^53 events of weight one; with fractional weights the content
  depends on the order of the fills (C76). Scaling a spectrum and scaling it back need not
  give the contents back (C77).
- `plot_root.plot_surface` takes the first axis of the surface for `dimension1`, but `surface` keeps
  the order of the configuration: with the names the other way round the picture is transposed,
  and counts that do not fit land in the overflow (C72). `plot.plot_surface` handles both orders.
- `plot.spectral_plot` does not compare the axis of the limit with the others: a limit with as many
  bins on another range is drawn in the wrong place (C72). Whether an entry is background is
  decided with `is "background"`, by identity of the string object.
- `plot_root.spectral_plot` calls `SetLineStyle` on a numpy array: it raises AttributeError for any
  non-empty dictionary (not modelled).
- `plot_sigma_best_fit_vs_scale` subtracts and divides in place on the view that `get_best_fits` returns:
  the results now keep the pulls as best fits, and drawing again gives another graph. Without a sigma
  it raises TypeError after the prior has been subtracted (C73).
- `LimitResults.get_limit_stat` reads an attribute that does not exist and always raises
  AttributeError.
- `plot_raw_stats_vs_pars` and `plot_stats_vs_pars` raise for every fit that does not have exactly two
  parameters; keywords to fix the others raise AttributeError (C74).
- `plot_*_vs_par_scale` give ROOT the whole grid: with two parameters the points are the first
  entries of the flattened table whichever parameter is named. `GridSearch.get_penalty_terms`
  uses the index of the parameter as a position along the first parameter (C74).
- `plot_per_bin` looks up the index of `x_dim` twice and always takes the second branch: with the
  dimensions in the order of the configuration the picture is transposed (C74).
- A Limit whose get_limit is given a minimum statistic scales whatever signal the fit has: if another
  Limit was made meanwhile it answers with the limit of the other signal (C75_minimum_refuted). Two
  signals with one background name share the cached convolved spectrum (C75_names_refuted).
- `scripts/klz_majoron_limits.py` cannot run to its end: it passes `per_bin` to `Limit`, which has no such
  argument, and `store_summary` to `get_limit`; without a region in the configuration `roi` is undefined; the
  documented dictionary of signals is iterated by key, so the names and not the paths are opened;
  the mutable default arguments keep backgrounds and signals from one call to the next.
- `plot.plot_surface` passes bin centres, not edges, to `pcolormesh`, which draws one row and one
  column less (behaviour of matplotlib, not modelled).

Fit and limit
* With two or more global parameters the signal gets only the last one (C52); backgrounds
  of the same name share the cache; a zero rate makes every later evaluation fail; values
  that print alike reuse a stale spectrum; rebinning under a global parameter puts events in
  wrong bins afterwards (C64).
* Building the fixed background cuts the axes of the caller's spectra; spectra that share a
  configuration are summed in wrong bins; different bin widths pass the checks;
  `set_signal(shrink=False)` checks nothing; `Fit(shrink=False)` still shrinks; a region with
  a bound of the wrong length raises AttributeError or KeyError; floating bounds are never
  checked (C53).
* Penalty terms of the fit without signal are not subtracted; with per-bin statistics the
  minimum is searched in the flattened array; a parameter without width raises TypeError
  (C45). `Limit.get_limit(store_spectra=True)` calls `store.dump` with a keyword it does not
  have, so every call raises after its results were written; without a limit the file name
  asked for is ignored; the log shows best fits and penalty terms of another scaling unless
  the minimum is at the first one (C79). `LimitResults.get_limit_stat` uses an attribute that does not exist (r).
* Scaling the signal to zero decays makes every later scaling fail, and a signal that is the
  same object as the fixed background scales it too; both are excluded by hypotheses of C66
  and C67 (r).

Logging and scripts
* A message through the module `logging` before `start_logging`, as the grids of parameters
  write (parameter.py:344, 441), means that no log file is made and nothing below warnings is
  shown; a start with an unknown log level raises but fixes the log file; `short_name` does
  not give `echidna.log` (C80).
* `get_array_errors` discards its reshape, so the plot-grab errors of spectra with several
  dimensions raise or give too many bins; `frac_err` is ignored unless `lin_err` is set to 0;
  `--lower_bound` and `--upper_bound` move spectra opposite to the comment (C81).
* `klz_majoron_limits.main` needs a region of interest (else UnboundLocalError), keeps
  spectra of earlier calls in its default arguments and calls `get_limit` with a keyword it
  does not have (r).
* In float64 `get_bin` and `fill` may put one value into different bins at an edge: 0.3 on
  ten bins of [0, 1). `get_bin` of the upper bound is `bins` for 10 bins and `bins - 1` for
  93 bins of [0, 1] (C82).
* With several global fit parameters a spectrum that is convolved keeps only the last one
  (C67_globals_refuted).
* `ordered_dump` without a stream returns None instead of the text (r).

Files
* `store.py` imports `echidna.limit.summary`, which does not exist (r).
* An empty style comes back as the default one; a fit configuration without parameters
  comes back as None (C47); `dict_to_string` cannot store nested dictionaries, separators or
  the empty dictionary (C46).
* A dump that fails for want of a background name destroys the file or the old spectrum and
  leaves a group that blocks the next append; `dump_ndarray` always truncates (C48).
* A search with the default name cannot be dumped; results without spectral parameters
  cannot be loaded; alternating global dimensions permute the axes silently (C61);
  the per-bin flag and names are lost from limit results (C62); arrays are not read into
  attributes that are None (C63).
* `dump_to_file` with two blank names writes one file and loses the global parameters (C60).
* `DBIsotope` treats a loading or radius of 0 as not given (C51).
