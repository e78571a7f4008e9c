{
 "claims": [
  {
   "property": "C01",
   "status": "proved",
   "theorems": [
    "C01_get_bin_partition",
    "C01_get_bin_outside",
    "C01_get_bin_upper_edge",
    "C01_plain"
   ],
   "note": "x = high is accepted by get_bin and gives the non-existing index bins (C01_get_bin_upper_edge)."
  },
  {
   "property": "C02",
   "status": "proved",
   "theorems": [
    "C02_centre_roundtrip",
    "C02_centre_midpoint",
    "C02_centre_invalid",
    "C02_boundaries",
    "C02_centres"
   ],
   "note": ""
  },
  {
   "property": "C03",
   "status": "proved",
   "theorems": [
    "C03_fill_one_bin"
   ],
   "note": ""
  },
  {
   "property": "C04",
   "status": "proved",
   "theorems": [
    "C04_fill_unknown",
    "C04_fill_missing",
    "C04_fill_out_of_range",
    "C04_fill_rejected"
   ],
   "note": ""
  },
  {
   "property": "C05",
   "status": "proved",
   "theorems": [
    "C05_history_from_empty",
    "C05_history",
    "C05_accepted_spec",
    "C05_inside_spec",
    "C05_order"
   ],
   "note": ""
  },
  {
   "property": "C06",
   "status": "proved",
   "theorems": [
    "C06_project",
    "C06_project_unknown"
   ],
   "note": ""
  },
  {
   "property": "C07",
   "status": "partial",
   "theorems": [
    "C07_nd_project_characterised",
    "C07_nd_project_partial",
    "C07_nd_project_refuted"
   ],
   "note": "False as stated when two or more axes are summed over (C07_nd_project_refuted); C07_nd_project_characterised says what is computed in every case; the property holds when at most one axis is summed."
  },
  {
   "property": "C08",
   "status": "partial",
   "theorems": [
    "C08_surface_characterised",
    "C08_surface_partial",
    "C08_surface_refuted"
   ],
   "note": "False in four or more dimensions (C08_surface_refuted); holds up to three; characterised in general."
  },
  {
   "property": "C09",
   "status": "proved",
   "theorems": [
    "C09_rebin"
   ],
   "note": ""
  },
  {
   "property": "C10",
   "status": "proved",
   "theorems": [
    "C10_rebin_compose",
    "C10_rebin_identity"
   ],
   "note": ""
  },
  {
   "property": "C11",
   "status": "partial",
   "theorems": [
    "C11_rebin_rejected_data",
    "C11_rebin_rejected_partial",
    "C11_rebin_rejected_refuted"
   ],
   "note": "False when a dimension other than the first is rejected: the earlier dimensions have already been renumbered (C11_rebin_rejected_refuted). Data are never touched by a rejected rebin; rejected on the first dimension or on the number of dimensions has no effect."
  },
  {
   "property": "C12",
   "status": "partial",
   "theorems": [
    "C12_shrink_partial",
    "C12_shrink_edges_partial",
    "C12_shrink_any",
    "C12_sliver_refuted",
    "C12_width_refuted",
    "C12_close_refuted",
    "C12_shrink_refuted"
   ],
   "note": "C12_shrink_any: on every usable axis, which bins are kept and the new bounds (edges rounded to multiples of the bin width). Proved for axes whose lower bound is a multiple of the bin width: exactly the bins overlapping by >= 1% of a bin are kept, exactly the overlapping bins when the bounds are on edges. The plain statement is false: bounds rounded (C12_shrink_refuted), slivers dropped (C12_sliver_refuted), width changed (C12_width_refuted), configuration and data of different sizes (C12_close_refuted)."
  },
  {
   "property": "C13",
   "status": "partial",
   "theorems": [
    "C13_shrink_identity_partial",
    "C13_shrink_current",
    "C13_shrink_identity_refuted"
   ],
   "note": "C13_shrink_current: on every usable axis contents and numbers of bins are unchanged, the bounds go to the nearest multiples of the width. Identity proved for aligned axes; false otherwise: shrink() moves the bounds of [0.5, 10.5) (C13_shrink_identity_refuted)."
  },
  {
   "property": "C14",
   "status": "proved",
   "theorems": [
    "C14_shrink_rejected",
    "C14_shrink_unknown",
    "C14_shrink_unknown_index",
    "C14_shrink_outside"
   ],
   "note": ""
  },
  {
   "property": "C15",
   "status": "proved",
   "theorems": [
    "C15_cut",
    "C15_cut_ratio",
    "C15_cut_empty"
   ],
   "note": ""
  },
  {
   "property": "C16",
   "status": "proved",
   "theorems": [
    "C16_shrink_to_roi"
   ],
   "note": ""
  },
  {
   "property": "C17",
   "status": "proved",
   "theorems": [
    "C17_scale",
    "C17_scale_compose",
    "C17_scale_inverse",
    "C17_scale_zero"
   ],
   "note": ""
  },
  {
   "property": "C18",
   "status": "proved",
   "theorems": [
    "C18_add",
    "C18_add_rejected",
    "C18_add_comm"
   ],
   "note": ""
  },
  {
   "property": "C19",
   "status": "partial",
   "theorems": [
    "C19_add_regions_partial",
    "C19_add_regions_names_partial",
    "C19_add_regions_refuted"
   ],
   "note": "Proved when both spectra list their dimensions in the same order; false otherwise: parameters are compared by name, contents added by position (C19_add_regions_refuted)."
  },
  {
   "property": "C20",
   "status": "proved",
   "theorems": [
    "C20_history",
    "C20_history_nonneg"
   ],
   "note": ""
  },
  {
   "property": "C21",
   "status": "partial",
   "theorems": [
    "C21_frame_partial",
    "C21_history_partial",
    "C21_own_config_partial",
    "C21_no_resize_partial",
    "C21_reachable",
    "C21_shared",
    "C21_copy_fill_refuted",
    "C21_derived_shrink_refuted",
    "C21_shared_rebin_refuted",
    "C21_roi_refuted"
   ],
   "note": "False of the code as stated: copies, smeared/shifted versions and spectra made with one configuration object share it (refutations). Proved: independence for every history in which no call changes something shared, for whole classes of programs, and exactly what is seen through a shared object."
  },
  {
   "property": "C22",
   "status": "partial",
   "theorems": [
    "C22_smear_kernel",
    "C22_smear_total",
    "C22_smear_conserved",
    "C22_smear_unknown",
    "C22_num_sigma",
    "C22_window",
    "C22_last_bin_lost_refuted",
    "C22_last_bin_never_filled_refuted"
   ],
   "note": "Proved: one fixed kernel, non-negative, along the axis, within reach; every bin is moved completely unless it is in the last bin and the window is not wider than half a bin. Refuted: content of the last bin disappears when the resolution is finer than half a bin (C22_last_bin_lost_refuted), and a window touching the upper end never fills the last bin. Weight and sigma functions are arbitrary (positive weights)."
  },
  {
   "property": "C23",
   "status": "partial",
   "theorems": [
    "C23_random_histogram",
    "C23_random_bound",
    "C23_radial_refuted",
    "C23_unknown"
   ],
   "note": "Proved for EnergySmearLY/EnergySmearRes. RadialSmear.random_smear raises TypeError on every non-empty spectrum (C23_radial_refuted)."
  },
  {
   "property": "C24",
   "status": "proved",
   "theorems": [
    "C24_light_yield",
    "C24_light_yield_better",
    "C24_light_yield_default",
    "C24_light_yield_equal_refuted",
    "C24_resolution",
    "C24_resolution_better",
    "C24_resolution_default",
    "C24_set_light_yield",
    "C24_set_resolution",
    "C24_resolution_usable",
    "C24_resolution_equal_refuted"
   ],
   "note": "calc_smear_ly(cur, cur) raises ZeroDivisionError instead of ValueError (C24_light_yield_equal_refuted). Over the reals. calc_smear_res(cur, cur) returns 0, which set_resolution refuses (C24_resolution_equal_refuted)."
  },
  {
   "property": "C25",
   "status": "proved",
   "theorems": [
    "C25_shift_bins",
    "C25_shift_zero",
    "C25_shift_twice",
    "C25_negative_refuted"
   ],
   "note": "For non-negative contents; a line of bins with non-positive sum is dropped (C25_negative_refuted)."
  },
  {
   "property": "C26",
   "status": "proved",
   "theorems": [
    "C26_shift_interpolated",
    "C26_scale",
    "C26_scale_factor",
    "C26_shift_total",
    "C26_scale_total"
   ],
   "note": "An empty result is shown as ZeroDivisionError (numpy: nan)."
  },
  {
   "property": "C27",
   "status": "proved",
   "theorems": [
    "C27_ntuple_new",
    "C27_ntuple_append",
    "C27_refused",
    "C27_raises"
   ],
   "note": ""
  },
  {
   "property": "C28",
   "status": "partial",
   "theorems": [
    "C28_bipo_partial",
    "C28_bipo_append_partial",
    "C28_last_entry_refuted"
   ],
   "note": "Proved for every entry that has a successor; the last entry of a stream is never counted (C28_last_entry_refuted)."
  },
  {
   "property": "C29",
   "status": "partial",
   "theorems": [
    "C29_energy_reco",
    "C29_radial_reco",
    "C29_mc",
    "C29_external_energy",
    "C29_external_radial_mc",
    "C29_no_radius",
    "C29_zero_radius_refuted",
    "C29_unknown_name",
    "C29_zradial_refuted",
    "C29_radial3",
    "C29_root_mc",
    "C29_root_reco",
    "C29_root_external",
    "C29_root_external_no_trigger_refuted",
    "C29_values"
   ],
   "note": "Proved for r <> 0 and all seven constructible dimensions; refuted for r = 0 (taken as no cut), for the zradial3 names (TypeError) and for external ROOT entries without trigger."
  },
  {
   "property": "C30",
   "status": "proved",
   "theorems": [
    "C30_chi",
    "C30_ll",
    "C30_neyman_pearson",
    "C30_chi_up"
   ],
   "note": "Zero is characterised exactly; an expected value below 1e-34 is replaced by 1e-34 (for all-positive spectra of normal size: zero iff equal). Neyman, Pearson and the one-sided statistic are covered too."
  },
  {
   "property": "C31",
   "status": "proved",
   "theorems": [
    "C31_chi_is_twice_ll",
    "C31_differences_agree",
    "C31_formulas"
   ],
   "note": "Differences: observed values zero or at least 1e-34, expected at least 1e-34."
  },
  {
   "property": "C32",
   "status": "partial",
   "theorems": [
    "C32_total_is_sum",
    "C32_extended_ll_partial",
    "C32_chi_up_partial",
    "C32_extended_ll_refuted",
    "C32_chi_up_refuted"
   ],
   "note": "Holds for BakerCousinsChi, LL, Neyman, Pearson on all inputs; for ExtendedLL when no expected value is clamped and for BakerCousinsChiUp when no bin exceeds its expectation; refuted otherwise."
  },
  {
   "property": "C33",
   "status": "partial",
   "theorems": [
    "C33_malformed",
    "C33_wellformed_partial"
   ],
   "note": "Refuted only for BakerCousinsChiUp per bin, which raises ValueError when a bin exceeds its expectation (C32_chi_up_refuted)."
  },
  {
   "property": "C34",
   "status": "partial",
   "theorems": [
    "C34_unchanged_partial",
    "C34_twice",
    "C34_unchanged_refuted"
   ],
   "note": "Same answer twice is proved without exception; the arrays themselves are altered when a value below 1e-34 has to be raised (refuted in that case)."
  },
  {
   "property": "C35",
   "status": "partial",
   "theorems": [
    "C35_mixed",
    "C35_integers_exact",
    "C35_integers_floor",
    "C35_zero_any",
    "C35_penalty",
    "C35_penalty_shape",
    "C35_zero_sigma",
    "C35_integers_refuted"
   ],
   "note": "Floats, and integers mixed with floats: full shape proved. ExtendedLL is a likelihood but its penalty is not halved. Three integers are divided with floor in the statistics that do not convert sigma: exact if and only if sigma divides the difference (C35_integers_exact), otherwise refuted."
  },
  {
   "property": "C36",
   "status": "partial",
   "theorems": [
    "C36_linear",
    "C36_single_bin",
    "C36_logscale",
    "C36_logscale_nonpositive_low",
    "C36_logscale_deviation",
    "C36_rint",
    "C36_logscale_deviation_length_partial",
    "C36_logscale_deviation_length_refuted",
    "C36_logscale_deviation_prior_refuted"
   ],
   "note": "Linear and logarithmic grids for two or more bins; a single bin holds low only. logscale_deviation: range, monotony, spacing and presence of the prior proved when the lower share is not zero; number of values refuted for half-integer shares, presence of the prior refuted when it equals low."
  },
  {
   "property": "C37",
   "status": "proved",
   "theorems": [
    "C37_index_of_value",
    "C37_first_position",
    "C37_get_bin",
    "C37_linear_values",
    "C37_cached",
    "C37_get_bin_other",
    "C37_unset",
    "C37_get_bin_refuted"
   ],
   "note": "A missing value raises TypeError (the error message itself is malformed)."
  },
  {
   "property": "C38",
   "status": "proved",
   "theorems": [
    "C38_rate",
    "C38_last_rate_wins",
    "C38_unset"
   ],
   "note": ""
  },
  {
   "property": "C39",
   "status": "partial",
   "theorems": [
    "C39_name",
    "C39_idempotent",
    "C39_distinct_partial",
    "C39_unset",
    "C39_integers_refuted",
    "C39_foreign_token_refuted",
    "C39_no_extension_refuted",
    "C39_resolution_kinds_refuted"
   ],
   "note": "File names must be tokens joined by underscores with one .hdf5 at the end. Distinctness needs values printed as plain decimals and of the same kind; integers, foreign tokens, missing extension and changing between light yield and resolution are refuted."
  },
  {
   "property": "C40",
   "status": "proved",
   "theorems": [
    "C40_find_minimum",
    "C40_numpy_minimum",
    "C40_agree",
    "C40_unique",
    "C40_empty",
    "C40_no_axes"
   ],
   "note": "All arrays of rank >= 1 with no empty axis; also that the numpy path and find_minimum agree. nan values are outside the rational model."
  },
  {
   "property": "C41",
   "status": "partial",
   "theorems": [
    "C41_visits",
    "C41_visits_all",
    "C41_combinations",
    "C41_complete",
    "C41_once",
    "C41_no_grid",
    "C41_new"
   ],
   "note": "Proved for value grids without repeated values and with as many values as bins; an objective that raises stops the search. The full statement fails without these conditions: see C42_repeated_values_refuted, C42_wrong_length_refuted."
  },
  {
   "property": "C42",
   "status": "partial",
   "theorems": [
    "C42_minimum",
    "C42_repeated_values_refuted",
    "C42_wrong_length_refuted"
   ],
   "note": "Proved under the same conditions as C41 (which hold for linear grids with low < high, C37_linear_values). Refuted for repeated values and for grids whose length differs from the number of bins."
  },
  {
   "property": "C43",
   "status": "partial",
   "theorems": [
    "C43_read_back",
    "C43_penalty_at",
    "C43_raw_stats_at",
    "C43_raw_stats_at_squeezed",
    "C43_raw_stats_at_ones_refuted",
    "C43_missing_value",
    "C43_raw_stats_at_refuted",
    "C43_raw_stats_keyword_refuted"
   ],
   "note": "Proved for every position (get_raw_stat, get_penalty_term, get_stat) and by value (get_penalty_at, get_raw_stats_at per bin) when no two grid values are within the lookup tolerance. get_raw_stats_at of a search that is not per bin, and get_raw_stats with keywords, always raise (refuted theorems)."
  },
  {
   "property": "C44",
   "status": "proved",
   "theorems": [
    "C44_first_crossing",
    "C44_found_iff",
    "C44_incompatible",
    "C44_empty",
    "C44_number",
    "C44_monotone",
    "C44_smaller_found",
    "C44_excluded"
   ],
   "note": ""
  },
  {
   "property": "C45",
   "status": "partial",
   "theorems": [
    "C45_limit_partial",
    "C45_monotone",
    "C45_raises_first",
    "C45_raises_later",
    "C45_penalty_refuted",
    "C45_zero_minimum_ignored",
    "C45_no_width_refuted",
    "C45_no_width",
    "C45_per_bin_refuted",
    "C45_per_bin",
    "C45_per_bin_first",
    "C45_per_bin_given",
    "C45_per_bin_error_refuted"
   ],
   "note": "Proved for one number per fit and for one statistic per bin (C45_per_bin: exact answer or error), a signal whose only fit parameter is its rate, and fit parameters with a width; a parameter without width always raises TypeError (C45_no_width). Refuted: penalty terms of the fit without signal are not subtracted; a parameter without width raises TypeError although a limit exists; with statistics per bin the scan starts at a place in the flattened array, so the answer is the intended one only if that place is the first (C45_per_bin_first), and failures raise ValueError or IndexError; a supplied minimum of 0 is ignored, any other raises ValueError with several bins."
  },
  {
   "property": "C46",
   "status": "partial",
   "theorems": [
    "C46_roundtrip_partial",
    "C46_other_refuted",
    "C46_colon_refuted",
    "C46_comma_refuted",
    "C46_semicolon_refuted",
    "C46_empty_refuted"
   ],
   "note": "Round trip proved for every non-empty dictionary of strings, integers and floats whose keys and texts contain none of , : ; (floats: whose text reads back). Refuted otherwise: each separator, the empty dictionary, nested (ROI) dictionaries (TypeError)."
  },
  {
   "property": "C47",
   "status": "partial",
   "theorems": [
    "C47_load_partial",
    "C47_exact",
    "C47_succeeds",
    "C47_frame",
    "C47_style_refuted",
    "C47_empty_fit_refuted",
    "C47_fit_refuted"
   ],
   "note": "Every successful dump of a storable spectrum loads as exactly the same spectrum (fit configuration as in C49). Refuted: an empty style comes back blue, a fit configuration without parameters comes back as None, penalty terms and spectra name of a fit configuration are lost."
  },
  {
   "property": "C48",
   "status": "proved",
   "theorems": [
    "C48_frame",
    "C48_refused",
    "C48_only",
    "C48_others",
    "C48_stays",
    "C48_load",
    "C48_load_fit",
    "C48_load_limit",
    "C48_object_refuted",
    "C48_failing_refuted",
    "C48_half_written_refuted"
   ],
   "note": "Proved for every history of dump/dump_fit_results/dump_limit_results calls with append, including failing ones. Refuted parts of the claim stated separately: dump_ndarray always truncates; a dump that fails for want of a background name destroys the file (without append) or the old spectrum (overwrite) and leaves a group that blocks the next append."
  },
  {
   "property": "C49",
   "status": "partial",
   "theorems": [
    "C49_spectra",
    "C49_constructed",
    "C49_fit_partial",
    "C49_fit_exact",
    "C49_global_partial",
    "C49_global_order",
    "C49_penalty_refuted",
    "C49_order_refuted",
    "C49_name_refuted",
    "C49_globals_only_refuted",
    "C49_no_dimension",
    "C49_empty_refuted",
    "C49_globals_only",
    "C49_resolution_refuted"
   ],
   "note": "SpectraConfig exact. Fit configurations: everything but penalty terms (the best fit is stored in their place) and cached value arrays; exact order of the result. Refuted: penalty term, order of interleaved global dimensions, name, configurations without spectral parameters, empty configurations, resolution_ly with a dimension ending in 'resolution'."
  },
  {
   "property": "C50",
   "status": "proved",
   "theorems": [
    "C50_index",
    "C50_entry",
    "C50_lengths",
    "C50_partition",
    "C50_add_par",
    "C50_add_par_type",
    "C50_add_spectra",
    "C50_add_global",
    "C50_range",
    "C50_spectra_index",
    "C50_spectra_entry"
   ],
   "note": "All histories of construction, load, add_par and add_config."
  },
  {
   "property": "C51",
   "status": "proved",
   "theorems": [
    "C51_half_life_activity",
    "C51_activity_half_life",
    "C51_activity_counts",
    "C51_counts_activity",
    "C51_half_life_counts",
    "C51_counts_half_life",
    "C51_mass_half_life",
    "C51_half_life_mass",
    "C51_counts_mass",
    "C51_mass_counts",
    "C51_monotone",
    "C51_livetime",
    "C51_mass",
    "C51_atoms",
    "C51_atoms_target",
    "C51_atoms_reject",
    "C51_atoms_positive",
    "C51_new",
    "C51_new_reject",
    "C51_zero",
    "C51_negative",
    "C51_zero_refuted"
   ],
   "note": "Each pair of conversions is a pair of inverses with the documented closed form; strict monotonicity; ValueErrors; number of atoms; zero loading or radius given to the constructor is taken for the default (refuted)."
  },
  {
   "property": "C52",
   "status": "partial",
   "theorems": [
    "C52_history_partial",
    "C52_signal_last",
    "C52_bins",
    "C52_kinds",
    "C52_globals_refuted",
    "C52_names_refuted"
   ],
   "note": "With at most one global parameter or no signal the observed and expected spectra, after any history of evaluations, are the sum of fixed, floating and signal parts with their parameters applied (C52_history_partial, bin by bin C52_bins); with more global parameters the signal gets only the last one (C52_signal_last), so the property as stated is false (C52_globals_refuted), as it is for equal background names (C52_names_refuted). Hypotheses (prepared): spectra already have the axes of the data, no spectrum used twice, non-zero rates, printing tells values apart."
  },
  {
   "property": "C53",
   "status": "partial",
   "theorems": [
    "C53_region",
    "C53_roi",
    "C53_binning",
    "C53_fixed",
    "C53_originals_partial",
    "C53_check",
    "C53_ready",
    "C53_originals_refuted",
    "C53_shared_refuted",
    "C53_widths_refuted",
    "C53_signal_refuted",
    "C53_no_shrink_refuted",
    "C53_roi_length_refuted"
   ],
   "note": "Equal binning is proved for fits whose spectra have a configuration object each and the same bin widths in the region (C53_region, C53_binning), with the fixed background characterised as the scaled sum of the restricted spectra. 'The originals are unaffected' is false of the code: building the fixed background cuts the axes of the originals (C53_originals_refuted; exact effect in C53_fixed; C53_originals_partial when the region is the whole axis). Sharing a configuration or differing widths also break it (C53_shared_refuted, C53_widths_refuted)."
  },
  {
   "property": "C54",
   "status": "proved",
   "theorems": [
    "C54_total",
    "C54_order",
    "C54_rejected",
    "C54_order_refuted"
   ],
   "note": "Totals and order independence for spectra that can all be added to each other; C54_order_refuted: np.allclose is relative to its second argument, so two files with bounds at the tolerance can be merged in one order only."
  },
  {
   "property": "C55",
   "status": "partial",
   "theorems": [
    "C55_exact_partial",
    "C55_zero_partial",
    "C55_narrow_partial",
    "C55_away_partial",
    "C55_monotone",
    "C55_outside",
    "C55_refuted",
    "C55_positive_low_refuted"
   ],
   "note": "False next to the upper bound of axes that do not start at 0 (two witnesses). Proved: exact characterisation; axes that start at 0; axes with high <= 2 low; values more than one spacing away; monotonicity. Axes whose range overflows binary64 are excluded."
  },
  {
   "property": "C56",
   "status": "partial",
   "theorems": [
    "C56_name_set",
    "C56_name_mc_partial",
    "C56_name_mix_partial",
    "C56_name_reco_partial",
    "C56_name_stable",
    "C56_name_error",
    "C56_name_refuted"
   ],
   "note": "Proved when the marker found first in the order mc, mix, reco is the first marker of the name; C56_name_refuted shows a name for which the first marker is not used."
  },
  {
   "property": "C57",
   "status": "proved",
   "theorems": [
    "C57_root_mc",
    "C57_root_reco",
    "C57_root_unknown_type",
    "C57_new_mc",
    "C57_new_reco",
    "C57_refused",
    "C57_raises_mc",
    "C57_raises_reco"
   ],
   "note": ""
  },
  {
   "property": "C58",
   "status": "partial",
   "theorems": [
    "C58_set_par",
    "C58_set_bins",
    "C58_fresh_grid",
    "C58_success_clears_grid",
    "C58_exact",
    "C58_refused",
    "C58_list",
    "C58_rejected_partial",
    "C58_rejected_refuted",
    "C58_none_refuted"
   ],
   "note": "Numeric attributes; rejection after earlier keywords, sigma=None and scale flags on linear parameters are refuted."
  },
  {
   "property": "C59",
   "status": "partial",
   "theorems": [
    "C59_reset_per_bin",
    "C59_reset_refuted"
   ],
   "note": "Proved for per-bin searches with a name; refuted otherwise (the statistics array gets the wrong shape; a nameless search cannot be reset)."
  },
  {
   "property": "C60",
   "status": "partial",
   "theorems": [
    "C60_spectra",
    "C60_fit",
    "C60_global",
    "C60_other_files",
    "C60_default_names",
    "C60_blank_names_refuted",
    "C60_blank_name_refuted"
   ],
   "note": "Round trip, separate files and other files proved; refuted for two blank file names (one file, global parameters lost) and for a blank configuration name. YAML text trusted."
  },
  {
   "property": "C61",
   "status": "partial",
   "theorems": [
    "C61_roundtrip_partial",
    "C61_name_refuted",
    "C61_globals_only_refuted",
    "C61_order_refuted"
   ],
   "note": "Proved for named results whose global parameters are grouped by dimension and that have spectral parameters. Refuted: default name None (TypeError), no spectral parameters (KeyError on load), alternating dimensions (axes permuted silently)."
  },
  {
   "property": "C62",
   "status": "partial",
   "theorems": [
    "C62_roundtrip_partial",
    "C62_per_bin_refuted"
   ],
   "note": "All arrays, configurations (best fits and penalty terms apart, as in C49) and every fit result's grids come back. Refuted: the per-bin flag and the names of the fit results are lost."
  },
  {
   "property": "C63",
   "status": "partial",
   "theorems": [
    "C63_roundtrip_partial",
    "C63_none_refuted",
    "C63_stale_refuted",
    "C63_size"
   ],
   "note": "Proved for target objects whose attributes have the kind of the stored ones. Refuted: arrays are not read into attributes that are None; None is not restored over a set value."
  },
  {
   "property": "C64",
   "status": "partial",
   "theorems": [
    "C64_refused",
    "C64_objective_partial",
    "C64_search_partial",
    "C64_zero_rate_refuted",
    "C64_printing_refuted",
    "C64_rebin_refuted"
   ],
   "note": "Proved through the cache and the in-place changes for every statistic, penalty and grid (C64_objective_partial, C64_search_partial) under the hypotheses of C52; refuted for a zero rate, for values that print alike and for spectra that must be rebinned under a global parameter."
  },
  {
   "property": "C65",
   "status": "proved",
   "theorems": [
    "C65_smear",
    "C65_shift",
    "C65_stretch",
    "C65_shrink",
    "C65_rebin",
    "C65_project",
    "C65_parameters",
    "C65_random_refuted",
    "C65_cut_refuted"
   ],
   "note": "For weighted smearing, shift, stretch (interpolations linear in the contents), shrink, rebin and projections; refuted for random_smear and cut, which the property does not claim."
  },
  {
   "property": "C66",
   "status": "partial",
   "theorems": [
    "C66_history_partial",
    "C66_signal_last",
    "C66_shared_refuted",
    "C66_zero_refuted"
   ],
   "note": "Exact for at most one global parameter (C66_history_partial) and, with only the last global parameter applied to the signal, for any number (C66_signal_last). Hypotheses: signal distinct from data and fixed background, scalings of the sign of its decays, global parameters that commute with the normalisation (C65); refuted without the first two."
  },
  {
   "property": "C67",
   "status": "partial",
   "theorems": [
    "C67_limit_partial",
    "C67_one_answer",
    "C67_repeat_partial",
    "C67_limit_last",
    "C67_repeat_last",
    "C67_no_width",
    "C67_globals_refuted",
    "C67_refused",
    "C67_per_bin",
    "C67_per_bin_last",
    "C67_per_bin_one_answer",
    "C67_per_bin_repeat"
   ],
   "note": "End to end through stored convolutions and grid search, for every history and any number of earlier limit calculations. With several global parameters the plain statement is false (C67_globals_refuted); the answer is then the limit of the fits with only the last of them applied to the signal (C67_limit_last) and still does not depend on the history (C67_repeat_last). A parameter without prior width: TypeError (C67_no_width). With statistics per bin the answer is exactly that of C45_per_bin for the best fits (C67_per_bin, C67_per_bin_last), one answer whatever came before (C67_per_bin_repeat), but it is not the first excluded scaling (C67_per_bin_value)."
  },
  {
   "property": "C68",
   "status": "partial",
   "theorems": [
    "C68_scaled",
    "C68_shifted",
    "C68_energy_resolution",
    "C68_energy_light_yield",
    "C68_smeared",
    "C68_shrunk",
    "C68_rebinned",
    "C68_one_file",
    "C68_scaled_bare_name",
    "C68_shrunk_bare_name",
    "C68_rebinned_no_extension",
    "C68_rebinned_no_bins",
    "C68_scaled_beside_refuted",
    "C68_shrunk_beside_refuted",
    "C68_shifts_kept_refuted"
   ],
   "note": "Proved for paths with a directory, for every option value and outcome. Refuted for files without a directory (dump_scaled and dump_shrink write into the root directory) and for keeping the results of two different shifts (dump_shifted writes them to one name). rebin.py drops the last letter of a name without extension (C68_rebinned_no_extension)."
  },
  {
   "property": "C69",
   "status": "partial",
   "theorems": [
    "C69_location",
    "C69_prepared",
    "C69_distinct",
    "C69_grid",
    "C69_shift_refuted",
    "C69_same_kind_refuted",
    "C69_scaled_before_refuted",
    "C69_refused",
    "C69_directory_refuted",
    "C69_no_slash_refuted",
    "C69_light_yield_refuted"
   ],
   "note": "Proved for scale and resolution parameters (light yields over 10, resolutions below 1) on files in a directory, with distinct marks and directory names apart from the dimensions. Shifts and the other excluded cases are refuted with witnesses. The fit that uses these files is the subject of C70."
  },
  {
   "property": "C70",
   "status": "partial",
   "theorems": [
    "C70_history_partial",
    "C70_originals",
    "C70_no_global",
    "C70_scripts",
    "C70_own_refuted"
   ],
   "note": "Proved for fits whose spectra are prepared as in C52 and for files on the axes of the data, or on longer axes if the background's own parameters are rates (the signal has none). For a file on a longer axis and an own parameter that is not a rate it is false: C70_own_refuted (evaluating twice gives different results). Unlike C52 there is no restriction on the number of global parameters."
  },
  {
   "property": "C71",
   "status": "partial",
   "theorems": [
    "C71_ntuple",
    "C71_list_partial",
    "C71_list_refuted",
    "C71_list_clash_refuted",
    "C71_combined_partial",
    "C71_order",
    "C71_combined_refuted",
    "C71_folder_partial",
    "C71_folder_refuted",
    "C71_radius",
    "C71_nothing",
    "C71_root_refuted"
   ],
   "note": "Proved for one ntuple, for lists of ntuples of different names and for directories with a name that says mc, mix or reco, in any listing order and with or without the BiPo cut. The full claim is false: C71_root_refuted, C71_combined_refuted, C71_folder_refuted, C71_list_refuted, C71_list_clash_refuted."
  },
  {
   "property": "C72",
   "status": "partial",
   "theorems": [
    "C72_root_projection",
    "C72_mpl_projection",
    "C72_float_partial",
    "C72_float_refuted",
    "C72_spectral",
    "C72_spectral_limit_partial",
    "C72_spectral_axes",
    "C72_spectral_differ",
    "C72_limit_refuted",
    "C72_root_surface_partial",
    "C72_root_surface_transposed",
    "C72_mpl_surface_partial",
    "C72_root_surface_refuted"
   ],
   "note": "ROOT and matplotlib projections and the spectral plot are proved for all spectra; two-dimensional pictures up to three dimensions and, with ROOT, for dimensions in configuration order; false otherwise (transposed; one bin centre too many in binary64 for some axes; limit drawn on the wrong axis), refuted with witnesses"
  },
  {
   "property": "C73",
   "status": "partial",
   "theorems": [
    "C73_new",
    "C73_history",
    "C73_refuses",
    "C73_limit_stat_refuted",
    "C73_graphs",
    "C73_sigma_partial",
    "C73_no_sigma_refuted",
    "C73_drawing_refuted"
   ],
   "note": "Proved for every history of calls, every way of reading and the three plain graphs. The graph in units of sigma is right the first time, but drawing it changes the results (refuted). get_limit_stat always raises AttributeError (C73_limit_stat_refuted)."
  },
  {
   "property": "C74",
   "status": "partial",
   "theorems": [
    "C74_raw_table_partial",
    "C74_table_partial",
    "C74_graph_partial",
    "C74_per_bin",
    "C74_per_bin_surface_partial",
    "C74_table_refuted",
    "C74_keyword_refuted",
    "C74_graph_refuted",
    "C74_penalty_refuted",
    "C74_per_bin_surface_refuted",
    "C74_graph_witness_refuted"
   ],
   "note": "Proved for tables over two parameters in either order, graphs of one parameter and per-bin pictures (two-dimensional ones with the second dimension along x). The other cases raise or show other numbers in the code: each is characterised and refuted."
  },
  {
   "property": "C75",
   "status": "partial",
   "theorems": [
    "C75_limits_partial",
    "C75_order_partial",
    "C75_selected_partial",
    "C75_limits_last",
    "C75_no_width",
    "C75_selected_last",
    "C75_minimum_refuted",
    "C75_names_refuted"
   ],
   "note": "At most one global parameter; with more the signals get only the last (C75_limits_last, C75_selected_last). A parameter without prior width: TypeError (C75_no_width). A limit with a given minimum needs the fit to hold no other signal (false otherwise: C75_minimum_refuted). Signals are distinct objects, apart from data and fixed background, with distinct background names if there is a global parameter (C75_names_refuted). Statistics summed over bins (per_bin off)."
  },
  {
   "property": "C76",
   "status": "proved",
   "theorems": [
    "C76_counts",
    "C76_history",
    "C76_sum",
    "C76_axis",
    "C76_methods",
    "C76_exact",
    "C76_limit_refuted",
    "C76_order_refuted"
   ],
   "note": "binary64 by Flocq; the order of each sum is an argument (a tree) and is quantified over"
  },
  {
   "property": "C77",
   "status": "proved",
   "theorems": [
    "C77_history",
    "C77_sum",
    "C77_depth",
    "C77_bound",
    "C77_scalings",
    "C77_back_refuted"
   ],
   "note": "for numbers that are not negative and as long as nothing overflows or underflows, as the property says; scaling there and back is refuted"
  },
  {
   "property": "C78",
   "status": "proved",
   "theorems": [
    "C78_check",
    "C78_cautious",
    "C78_error",
    "C78_config",
    "C78_fit",
    "C78_linear_odd",
    "C78_linear_even",
    "C78_logscale_odd",
    "C78_deviation",
    "C78_rate",
    "C78_rate_grid",
    "C78_zero",
    "C78_zero_refuted",
    "C78_global_refuted"
   ],
   "note": "over the reals; prior 0 and global parameters are refuted"
  },
  {
   "property": "C79",
   "status": "partial",
   "theorems": [
    "C79_stored_partial",
    "C79_history",
    "C79_raises",
    "C79_asked_name_refuted",
    "C79_spectra_refuted",
    "C79_log_partial",
    "C79_no_width_refuted",
    "C79_log_refuted"
   ],
   "note": "Everything of the statement is proved; it is partial because three parts a user would expect are false of the code: the name asked for when no limit is found, store_spectra, and the log. Each is refuted with a witness (C79_*_refuted)."
  },
  {
   "property": "C80",
   "status": "partial",
   "theorems": [
    "C80_once_partial",
    "C80_format",
    "C80_cautious",
    "C80_early_refuted",
    "C80_failed_start_refuted",
    "C80_start_raises",
    "C80_started_never_raises",
    "C80_own_file",
    "C80_short_name_refuted",
    "C80_module"
   ],
   "note": "Everything proved for programs that do not log through the module before the first start (C80_once_partial); otherwise false (C80_early_refuted, C80_failed_start_refuted)."
  },
  {
   "property": "C81",
   "status": "partial",
   "theorems": [
    "C81_errors_partial",
    "C81_no_error",
    "C81_fraction_refuted",
    "C81_size",
    "C81_bounds_partial",
    "C81_dims_refuted",
    "C81_direction_refuted"
   ],
   "note": "Proved for arrays of any shape (errors) and spectra of one dimension (bounds); false for several dimensions, a fraction alone, and the documented direction (refuted)."
  },
  {
   "property": "C82",
   "status": "proved",
   "theorems": [
    "C82_lookup",
    "C82_monotone",
    "C82_centre",
    "C82_centres",
    "C82_boundaries",
    "C82_between",
    "C82_edge_refuted",
    "C82_top_refuted",
    "C82_coarse_refuted",
    "C82_coarse_centres_refuted",
    "C82_missing_centre_refuted"
   ],
   "note": "Every rounding of get_width, get_bin, get_bin_centre, get_bin_centres, get_bin_boundaries and of the fill index is modelled in binary64 (Flocq). numpy.arange and numpy.linspace are written as numpy computes them. At edges and on axes that are too narrow the claims fail: refuted with witnesses."
  },
  {
   "property": "C83",
   "status": "proved",
   "theorems": [
    "C83_spectra",
    "C83_fit",
    "C83_global",
    "C83_both",
    "C83_spectra_wrong",
    "C83_fit_wrong",
    "C83_global_wrong",
    "C83_both_wrong",
    "C83_section",
    "C83_file"
   ],
   "note": "The name of a global configuration is left open here (C49_name_refuted). Texts that spell numbers and non-number values of optional entries are outside the model."
  },
  {
   "property": "C84",
   "status": "proved",
   "theorems": [
    "C84_set",
    "C84_set_missing",
    "C84_checked",
    "C84_floating",
    "C84_floating_stop",
    "C84_append",
    "C84_append_none",
    "C84_roi",
    "C84_roi_wrong",
    "C84_fit",
    "C84_fit_none",
    "C84_new_roi",
    "C84_new_missing"
   ],
   "note": "setters, refusals, append_fixed_background, set_roi, fit without floating backgrounds; exceptions of configurations are an argument; spectra share no configuration object"
  },
  {
   "property": "C85",
   "status": "proved",
   "theorems": [
    "C85_set",
    "C85_order",
    "C85_dict",
    "C85_wrong",
    "C85_width",
    "C85_unit",
    "C85_wrong_refuted",
    "C85_unit_refuted"
   ],
   "note": "set_par, get_unit; values that spell numbers as text are not modelled"
  },
  {
   "property": "C86",
   "status": "partial",
   "theorems": [
    "C86_rows_partial",
    "C86_rows_last",
    "C86_array_limit",
    "C86_fixed",
    "C86_per_bin",
    "C86_per_bin_last"
   ],
   "note": "Proved after any history for at most one global parameter, and for any number of them with only the last applied to the signal (as C66). With statistics kept per bin the fits are as stated (C86_per_bin), but the pairs have different shapes and numpy makes no array of numbers of them: the claim fails there."
  },
  {
   "property": "C87",
   "status": "proved",
   "theorems": [
    "C87_set_stat",
    "C87_set_stat_refused",
    "C87_set_penalty",
    "C87_set_arrays",
    "C87_get",
    "C87_get_stat",
    "C87_history"
   ],
   "note": "Writes and reads of the arrays of a grid search at indices from 0 (negative indices are not modelled), with broadcasting, refusals and histories."
  },
  {
   "property": "C88",
   "status": "partial",
   "theorems": [
    "C88_refuted",
    "C88_unknown",
    "C88_stats_partial",
    "C88_stats_refuted",
    "C88_stat",
    "C88_stat_all",
    "C88_stat_refuted"
   ],
   "note": "False of the module as it is: C88_refuted (itertools is not imported, so both methods always raise). With the name bound: unknown names raise IndexError; nd_project_stats is the projection on the named fit parameters when all spectral names are given (C88_stats_partial) and raises otherwise (C88_stats_refuted); nd_project_stat sums axes that drift (C88_stat), is the array itself when all are named (C88_stat_all) and wrong otherwise (C88_stat_refuted)."
  },
  {
   "property": "C89",
   "status": "partial",
   "theorems": [
    "C89_shrink_partial",
    "C89_boundaries",
    "C89_whole",
    "C89_unaligned_refuted"
   ],
   "note": "Proved for axes whose lower bound is a multiple of the bin width (up to 1/1000 of it); C89_boundaries and C89_whole are the two common uses. Refuted on other axes: C89_unaligned_refuted. Requests in the last 1/50 of a bin before an edge are not covered (the code may take the next bin)."
  },
  {
   "property": "C90",
   "status": "partial",
   "theorems": [
    "C90_signal",
    "C90_units_refuted",
    "C90_root_half_life",
    "C90_root_mass",
    "C90_map_partial",
    "C90_turn_on_partial",
    "C90_turn_on_refused",
    "C90_push_pull_partial",
    "C90_last_refuted",
    "C90_penalty",
    "C90_penalty_saved_refuted",
    "C90_per_bin",
    "C90_root_spectral_refuted"
   ],
   "note": "Everything but the last count and the last value of the three maps, which are not drawn (C90_last_refuted); the refuted keywords, saving of penalties and the ROOT spectral plot never work. Colours and levels are not modelled."
  },
  {
   "property": "C91",
   "status": "partial",
   "theorems": [
    "C91_complete",
    "C91_spectrum_partial",
    "C91_fit",
    "C91_limit",
    "C91_raised",
    "C91_raised_fit",
    "C91_others",
    "C91_lost",
    "C91_retry",
    "C91_retry_anew",
    "C91_retry_refuted",
    "C91_old_refuted",
    "C91_object_refuted"
   ],
   "note": "Every reader of a file that went through any history of stopped saves gets what the file held before or an error. False in four ways, each shown: a spectrum of the old format at the root of the file comes back when an overwriting save is stopped; appending without overwrite (fit and limit results have no overwrite) can never be made again; a save that does not append loses everything else from its first step on; dump_ndarray stopped half way is loaded without any error. A loss of power that damages the HDF5 file itself is not modelled."
  },
  {
   "property": "C92",
   "status": "partial",
   "theorems": [
    "C92_gauss",
    "C92_poisson",
    "C92_history",
    "C92_positive",
    "C92_gauss_shape",
    "C92_gauss_one",
    "C92_poisson_one",
    "C92_poisson_mean",
    "C92_poisson_variance",
    "C92_ly_width_partial",
    "C92_res_refuted",
    "C92_res_width_refuted",
    "C92_unset_refuted"
   ],
   "note": "Everything is proved for EnergySmearLY and for Gaussian weights of EnergySmearRes. False, and shown: with Poisson statistics (the default) the weights of EnergySmearRes do not depend on the resolution that was set (always 200 photons per MeV), so their variance is not the square of get_sigma."
  },
  {
   "property": "C93",
   "status": "partial",
   "theorems": [
    "C93_refused",
    "C93_accepted",
    "C93_reasons",
    "C93_set_minimiser",
    "C93_ready_after",
    "C93_again_refuted",
    "C93_floating_refuted"
   ],
   "note": "Exact for the first run of a fit (C93_refused, C93_accepted, C93_reasons). Later runs are not checked (C93_again_refuted), and the bounds of floating backgrounds are not part of the check (C93_floating_refuted)."
  },
  {
   "property": "C94",
   "status": "partial",
   "theorems": [
    "C94_loads_partial",
    "C94_one_order",
    "C94_in_order",
    "C94_style",
    "C94_no_file",
    "C94_neither",
    "C94_order_refuted"
   ],
   "note": "Old files load as written up to the order of the axes, which is that of the attributes in the file (the full statement when the axes are first mentioned in their order: C94_in_order). False of the code in general: C94_order_refuted, attributes listed by name exchange the axes, which no longer match the data. Files with regions of interest are not modelled."
  },
  {
   "property": "C95",
   "status": "partial",
   "theorems": [
    "C95_fit_results",
    "C95_fit_refused",
    "C95_limit_results_partial",
    "C95_limit_size_refuted",
    "C95_spectrum_size_refuted",
    "C95_no_file",
    "C95_no_group"
   ],
   "note": "Proved for fit results from every file. False of the code for limit results and spectra: C95_limit_size_refuted, C95_spectrum_size_refuted (arrays of any size are accepted); for limit results the number of places, the shape of the spectrum and the contents are proved (C95_limit_results_partial)."
  },
  {
   "property": "C96",
   "status": "proved",
   "theorems": [
    "C96_order",
    "C96_parts",
    "C96_merging",
    "C96_closer"
   ],
   "note": "All six statistics. Over the real numbers, as all statements about statistics."
  },
  {
   "property": "C97",
   "status": "partial",
   "theorems": [
    "C97_rebin",
    "C97_shrink",
    "C97_refused",
    "C97_smear",
    "C97_shift_partial",
    "C97_project",
    "C97_nd_project",
    "C97_shift_negative_refuted",
    "C97_interpolated_shift_refuted",
    "C97_stretch_refuted",
    "C97_cut_refuted"
   ],
   "note": "Rebin, shrink, weighted smearing and projections: proved for all contents. Shifts by whole bins: proved for contents that are not negative, false otherwise (C97_shift_negative_refuted). Beyond the statement: interpolated shifts, stretches and cut do not add up (refuted)."
  },
  {
   "property": "C98",
   "status": "partial",
   "theorems": [
    "C98_steps_partial",
    "C98_order_partial",
    "C98_steps_refuted"
   ],
   "note": "Proved for axes whose lower bound is a multiple of the bin width, for all bounds (those that ask for at least a hundredth of a bin on every axis). False on other axes, where each step moves the bounds: C98_steps_refuted."
  },
  {
   "property": "C99",
   "status": "proved",
   "theorems": [
    "C99_project",
    "C99_smear"
   ],
   "note": "The projection of a rebinned spectrum is the merged projection of the original; smearing an axis leaves projections onto the other axes unchanged under C22's condition that nothing is dropped at the upper end."
  },
  {
   "property": "C100",
   "status": "proved",
   "theorems": [
    "C100_made",
    "C100_ntuple",
    "C100_no_radius",
    "C100_root_true",
    "C100_root_reco"
   ],
   "note": "Every extractor that can be made, with both flags; the z-radial classes cannot be made (C29)."
  },
  {
   "property": "C101",
   "status": "proved",
   "theorems": [
    "C101_order",
    "C101_project"
   ],
   "note": "Shifts by whole bins (up to what numpy.isclose tolerates) of spectra without negative contents, as the statement says."
  }
 ]
}
