{
 "C01": {
  "status": "proved",
  "note": "x = high is accepted by get_bin and gives the non-existing index bins (C01_get_bin_upper_edge)."
 },
 "C07": {
  "status": "partial",
  "note": "False as stated when two or more axes are summed over (C07_nd_project_refuted); C07_nd_project_characterised says what is computed in every case; the property holds when at most one axis is summed."
 },
 "C08": {
  "status": "partial",
  "note": "False in four or more dimensions (C08_surface_refuted); holds up to three; characterised in general."
 },
 "C11": {
  "status": "partial",
  "note": "False when a dimension other than the first is rejected: the earlier dimensions have already been renumbered (C11_rebin_rejected_refuted). Data are never touched by a rejected rebin; rejected on the first dimension or on the number of dimensions has no effect."
 },
 "C12": {
  "status": "partial",
  "note": "C12_shrink_any: on every usable axis, which bins are kept and the new bounds (edges rounded to multiples of the bin width). Proved for axes whose lower bound is a multiple of the bin width: exactly the bins overlapping by >= 1% of a bin are kept, exactly the overlapping bins when the bounds are on edges. The plain statement is false: bounds rounded (C12_shrink_refuted), slivers dropped (C12_sliver_refuted), width changed (C12_width_refuted), configuration and data of different sizes (C12_close_refuted)."
 },
 "C13": {
  "status": "partial",
  "note": "C13_shrink_current: on every usable axis contents and numbers of bins are unchanged, the bounds go to the nearest multiples of the width. Identity proved for aligned axes; false otherwise: shrink() moves the bounds of [0.5, 10.5) (C13_shrink_identity_refuted)."
 },
 "C19": {
  "status": "partial",
  "note": "Proved when both spectra list their dimensions in the same order; false otherwise: parameters are compared by name, contents added by position (C19_add_regions_refuted)."
 },
 "C56": {
  "status": "partial",
  "note": "Proved when the marker found first in the order mc, mix, reco is the first marker of the name; C56_name_refuted shows a name for which the first marker is not used."
 },
 "C22": {
  "status": "partial",
  "note": "Proved: one fixed kernel, non-negative, along the axis, within reach; every bin is moved completely unless it is in the last bin and the window is not wider than half a bin. Refuted: content of the last bin disappears when the resolution is finer than half a bin (C22_last_bin_lost_refuted), and a window touching the upper end never fills the last bin. Weight and sigma functions are arbitrary (positive weights)."
 },
 "C23": {
  "status": "partial",
  "note": "Proved for EnergySmearLY/EnergySmearRes. RadialSmear.random_smear raises TypeError on every non-empty spectrum (C23_radial_refuted)."
 },
 "C24": {
  "status": "proved",
  "note": "calc_smear_ly(cur, cur) raises ZeroDivisionError instead of ValueError (C24_light_yield_equal_refuted). Over the reals. calc_smear_res(cur, cur) returns 0, which set_resolution refuses (C24_resolution_equal_refuted)."
 },
 "C25": {
  "status": "proved",
  "note": "For non-negative contents; a line of bins with non-positive sum is dropped (C25_negative_refuted)."
 },
 "C26": {
  "status": "proved",
  "note": "An empty result is shown as ZeroDivisionError (numpy: nan)."
 },
 "C28": {
  "status": "partial",
  "note": "Proved for every entry that has a successor; the last entry of a stream is never counted (C28_last_entry_refuted)."
 },
 "C29": {
  "status": "partial",
  "note": "Proved for r <> 0 and all seven constructible dimensions; refuted for r = 0 (taken as no cut), for the zradial3 names (TypeError) and for external ROOT entries without trigger."
 },
 "C30": {
  "status": "proved",
  "note": "Zero is characterised exactly; an expected value below 1e-34 is replaced by 1e-34 (for all-positive spectra of normal size: zero iff equal). Neyman, Pearson and the one-sided statistic are covered too."
 },
 "C31": {
  "status": "proved",
  "note": "Differences: observed values zero or at least 1e-34, expected at least 1e-34."
 },
 "C32": {
  "status": "partial",
  "note": "Holds for BakerCousinsChi, LL, Neyman, Pearson on all inputs; for ExtendedLL when no expected value is clamped and for BakerCousinsChiUp when no bin exceeds its expectation; refuted otherwise."
 },
 "C33": {
  "status": "partial",
  "note": "Refuted only for BakerCousinsChiUp per bin, which raises ValueError when a bin exceeds its expectation (C32_chi_up_refuted)."
 },
 "C34": {
  "status": "partial",
  "note": "Same answer twice is proved without exception; the arrays themselves are altered when a value below 1e-34 has to be raised (refuted in that case)."
 },
 "C35": {
  "status": "partial",
  "note": "Floats, and integers mixed with floats: full shape proved. ExtendedLL is a likelihood but its penalty is not halved. Three integers are divided with floor in the statistics that do not convert sigma: exact if and only if sigma divides the difference (C35_integers_exact), otherwise refuted."
 },
 "C36": {
  "status": "partial",
  "note": "Linear and logarithmic grids for two or more bins; a single bin holds low only. logscale_deviation: range, monotony, spacing and presence of the prior proved when the lower share is not zero; number of values refuted for half-integer shares, presence of the prior refuted when it equals low."
 },
 "C37": {
  "status": "proved",
  "note": "A missing value raises TypeError (the error message itself is malformed)."
 },
 "C38": {
  "status": "proved",
  "note": ""
 },
 "C39": {
  "status": "partial",
  "note": "File names must be tokens joined by underscores with one .hdf5 at the end. Distinctness needs values printed as plain decimals and of the same kind; integers, foreign tokens, missing extension and changing between light yield and resolution are refuted."
 },
 "C58": {
  "status": "partial",
  "note": "Numeric attributes; rejection after earlier keywords, sigma=None and scale flags on linear parameters are refuted."
 },
 "C40": {
  "status": "proved",
  "note": "All arrays of rank >= 1 with no empty axis; also that the numpy path and find_minimum agree. nan values are outside the rational model."
 },
 "C41": {
  "status": "partial",
  "note": "Proved for value grids without repeated values and with as many values as bins; an objective that raises stops the search. The full statement fails without these conditions: see C42_repeated_values_refuted, C42_wrong_length_refuted."
 },
 "C42": {
  "status": "partial",
  "note": "Proved under the same conditions as C41 (which hold for linear grids with low < high, C37_linear_values). Refuted for repeated values and for grids whose length differs from the number of bins."
 },
 "C43": {
  "status": "partial",
  "note": "Proved for every position (get_raw_stat, get_penalty_term, get_stat) and by value (get_penalty_at, get_raw_stats_at per bin) when no two grid values are within the lookup tolerance. get_raw_stats_at of a search that is not per bin, and get_raw_stats with keywords, always raise (refuted theorems)."
 },
 "C59": {
  "status": "partial",
  "note": "Proved for per-bin searches with a name; refuted otherwise (the statistics array gets the wrong shape; a nameless search cannot be reset)."
 },
 "C44": {
  "status": "proved",
  "note": ""
 },
 "C45": {
  "status": "partial",
  "note": "Proved for one number per fit and for one statistic per bin (C45_per_bin: exact answer or error), a signal whose only fit parameter is its rate, and fit parameters with a width; a parameter without width always raises TypeError (C45_no_width). Refuted: penalty terms of the fit without signal are not subtracted; a parameter without width raises TypeError although a limit exists; with statistics per bin the scan starts at a place in the flattened array, so the answer is the intended one only if that place is the first (C45_per_bin_first), and failures raise ValueError or IndexError; a supplied minimum of 0 is ignored, any other raises ValueError with several bins."
 },
 "C49": {
  "status": "partial",
  "note": "SpectraConfig exact. Fit configurations: everything but penalty terms (the best fit is stored in their place) and cached value arrays; exact order of the result. Refuted: penalty term, order of interleaved global dimensions, name, configurations without spectral parameters, empty configurations, resolution_ly with a dimension ending in 'resolution'."
 },
 "C50": {
  "status": "proved",
  "note": "All histories of construction, load, add_par and add_config."
 },
 "C60": {
  "status": "partial",
  "note": "Round trip, separate files and other files proved; refuted for two blank file names (one file, global parameters lost) and for a blank configuration name. YAML text trusted."
 },
 "C46": {
  "status": "partial",
  "note": "Round trip proved for every non-empty dictionary of strings, integers and floats whose keys and texts contain none of , : ; (floats: whose text reads back). Refuted otherwise: each separator, the empty dictionary, nested (ROI) dictionaries (TypeError)."
 },
 "C47": {
  "status": "partial",
  "note": "Every successful dump of a storable spectrum loads as exactly the same spectrum (fit configuration as in C49). Refuted: an empty style comes back blue, a fit configuration without parameters comes back as None, penalty terms and spectra name of a fit configuration are lost."
 },
 "C48": {
  "status": "proved",
  "note": "Proved for every history of dump/dump_fit_results/dump_limit_results calls with append, including failing ones. Refuted parts of the claim stated separately: dump_ndarray always truncates; a dump that fails for want of a background name destroys the file (without append) or the old spectrum (overwrite) and leaves a group that blocks the next append."
 },
 "C61": {
  "status": "partial",
  "note": "Proved for named results whose global parameters are grouped by dimension and that have spectral parameters. Refuted: default name None (TypeError), no spectral parameters (KeyError on load), alternating dimensions (axes permuted silently)."
 },
 "C62": {
  "status": "partial",
  "note": "All arrays, configurations (best fits and penalty terms apart, as in C49) and every fit result's grids come back. Refuted: the per-bin flag and the names of the fit results are lost."
 },
 "C63": {
  "status": "partial",
  "note": "Proved for target objects whose attributes have the kind of the stored ones. Refuted: arrays are not read into attributes that are None; None is not restored over a set value."
 },
 "C51": {
  "status": "proved",
  "note": "Each pair of conversions is a pair of inverses with the documented closed form; strict monotonicity; ValueErrors; number of atoms; zero loading or radius given to the constructor is taken for the default (refuted)."
 },
 "C54": {
  "status": "proved",
  "note": "Totals and order independence for spectra that can all be added to each other; C54_order_refuted: np.allclose is relative to its second argument, so two files with bounds at the tolerance can be merged in one order only."
 },
 "C55": {
  "status": "partial",
  "note": "False next to the upper bound of axes that do not start at 0 (two witnesses). Proved: exact characterisation; axes that start at 0; axes with high <= 2 low; values more than one spacing away; monotonicity. Axes whose range overflows binary64 are excluded."
 },
 "C21": {
  "status": "partial",
  "note": "False of the code as stated: copies, smeared/shifted versions and spectra made with one configuration object share it (refutations). Proved: independence for every history in which no call changes something shared, for whole classes of programs, and exactly what is seen through a shared object."
 },
 "C52": {
  "status": "partial",
  "note": "With at most one global parameter or no signal the observed and expected spectra, after any history of evaluations, are the sum of fixed, floating and signal parts with their parameters applied (C52_history_partial, bin by bin C52_bins); with more global parameters the signal gets only the last one (C52_signal_last), so the property as stated is false (C52_globals_refuted), as it is for equal background names (C52_names_refuted). Hypotheses (prepared): spectra already have the axes of the data, no spectrum used twice, non-zero rates, printing tells values apart."
 },
 "C64": {
  "status": "partial",
  "note": "Proved through the cache and the in-place changes for every statistic, penalty and grid (C64_objective_partial, C64_search_partial) under the hypotheses of C52; refuted for a zero rate, for values that print alike and for spectra that must be rebinned under a global parameter."
 },
 "C53": {
  "status": "partial",
  "note": "Equal binning is proved for fits whose spectra have a configuration object each and the same bin widths in the region (C53_region, C53_binning), with the fixed background characterised as the scaled sum of the restricted spectra. 'The originals are unaffected' is false of the code: building the fixed background cuts the axes of the originals (C53_originals_refuted; exact effect in C53_fixed; C53_originals_partial when the region is the whole axis). Sharing a configuration or differing widths also break it (C53_shared_refuted, C53_widths_refuted)."
 },
 "C65": {
  "status": "proved",
  "note": "For weighted smearing, shift, stretch (interpolations linear in the contents), shrink, rebin and projections; refuted for random_smear and cut, which the property does not claim."
 },
 "C66": {
  "status": "partial",
  "note": "Exact for at most one global parameter (C66_history_partial) and, with only the last global parameter applied to the signal, for any number (C66_signal_last). Hypotheses: signal distinct from data and fixed background, scalings of the sign of its decays, global parameters that commute with the normalisation (C65); refuted without the first two."
 },
 "C67": {
  "status": "partial",
  "note": "End to end through stored convolutions and grid search, for every history and any number of earlier limit calculations. With several global parameters the plain statement is false (C67_globals_refuted); the answer is then the limit of the fits with only the last of them applied to the signal (C67_limit_last) and still does not depend on the history (C67_repeat_last). A parameter without prior width: TypeError (C67_no_width). With statistics per bin the answer is exactly that of C45_per_bin for the best fits (C67_per_bin, C67_per_bin_last), one answer whatever came before (C67_per_bin_repeat), but it is not the first excluded scaling (C67_per_bin_value)."
 },
 "C68": {
  "status": "partial",
  "note": "Proved for paths with a directory, for every option value and outcome. Refuted for files without a directory (dump_scaled and dump_shrink write into the root directory) and for keeping the results of two different shifts (dump_shifted writes them to one name). rebin.py drops the last letter of a name without extension (C68_rebinned_no_extension)."
 },
 "C69": {
  "status": "partial",
  "note": "Proved for scale and resolution parameters (light yields over 10, resolutions below 1) on files in a directory, with distinct marks and directory names apart from the dimensions. Shifts and the other excluded cases are refuted with witnesses. The fit that uses these files is the subject of C70."
 },
 "C70": {
  "status": "partial",
  "note": "Proved for fits whose spectra are prepared as in C52 and for files on the axes of the data, or on longer axes if the background's own parameters are rates (the signal has none). For a file on a longer axis and an own parameter that is not a rate it is false: C70_own_refuted (evaluating twice gives different results). Unlike C52 there is no restriction on the number of global parameters."
 },
 "C71": {
  "status": "partial",
  "note": "Proved for one ntuple, for lists of ntuples of different names and for directories with a name that says mc, mix or reco, in any listing order and with or without the BiPo cut. The full claim is false: C71_root_refuted, C71_combined_refuted, C71_folder_refuted, C71_list_refuted, C71_list_clash_refuted."
 },
 "C72": {
  "status": "partial",
  "note": "ROOT and matplotlib projections and the spectral plot are proved for all spectra; two-dimensional pictures up to three dimensions and, with ROOT, for dimensions in configuration order; false otherwise (transposed; one bin centre too many in binary64 for some axes; limit drawn on the wrong axis), refuted with witnesses"
 },
 "C73": {
  "status": "partial",
  "note": "Proved for every history of calls, every way of reading and the three plain graphs. The graph in units of sigma is right the first time, but drawing it changes the results (refuted). get_limit_stat always raises AttributeError (C73_limit_stat_refuted)."
 },
 "C74": {
  "status": "partial",
  "note": "Proved for tables over two parameters in either order, graphs of one parameter and per-bin pictures (two-dimensional ones with the second dimension along x). The other cases raise or show other numbers in the code: each is characterised and refuted."
 },
 "C75": {
  "status": "partial",
  "note": "At most one global parameter; with more the signals get only the last (C75_limits_last, C75_selected_last). A parameter without prior width: TypeError (C75_no_width). A limit with a given minimum needs the fit to hold no other signal (false otherwise: C75_minimum_refuted). Signals are distinct objects, apart from data and fixed background, with distinct background names if there is a global parameter (C75_names_refuted). Statistics summed over bins (per_bin off)."
 },
 "C76": {
  "status": "proved",
  "note": "binary64 by Flocq; the order of each sum is an argument (a tree) and is quantified over"
 },
 "C77": {
  "status": "proved",
  "note": "for numbers that are not negative and as long as nothing overflows or underflows, as the property says; scaling there and back is refuted"
 },
 "C78": {
  "status": "proved",
  "note": "over the reals; prior 0 and global parameters are refuted"
 },
 "C79": {
  "status": "partial",
  "note": "Everything of the statement is proved; it is partial because three parts a user would expect are false of the code: the name asked for when no limit is found, store_spectra, and the log. Each is refuted with a witness (C79_*_refuted)."
 },
 "C80": {
  "status": "partial",
  "note": "Everything proved for programs that do not log through the module before the first start (C80_once_partial); otherwise false (C80_early_refuted, C80_failed_start_refuted)."
 },
 "C81": {
  "status": "partial",
  "note": "Proved for arrays of any shape (errors) and spectra of one dimension (bounds); false for several dimensions, a fraction alone, and the documented direction (refuted)."
 },
 "C82": {
  "status": "proved",
  "note": "Every rounding of get_width, get_bin, get_bin_centre, get_bin_centres, get_bin_boundaries and of the fill index is modelled in binary64 (Flocq). numpy.arange and numpy.linspace are written as numpy computes them. At edges and on axes that are too narrow the claims fail: refuted with witnesses."
 },
 "C83": {
  "status": "proved",
  "note": "The name of a global configuration is left open here (C49_name_refuted). Texts that spell numbers and non-number values of optional entries are outside the model."
 },
 "C84": {
  "status": "proved",
  "note": "setters, refusals, append_fixed_background, set_roi, fit without floating backgrounds; exceptions of configurations are an argument; spectra share no configuration object"
 },
 "C85": {
  "status": "proved",
  "note": "set_par, get_unit; values that spell numbers as text are not modelled"
 },
 "C86": {
  "status": "partial",
  "note": "Proved after any history for at most one global parameter, and for any number of them with only the last applied to the signal (as C66). With statistics kept per bin the fits are as stated (C86_per_bin), but the pairs have different shapes and numpy makes no array of numbers of them: the claim fails there."
 },
 "C87": {
  "status": "proved",
  "note": "Writes and reads of the arrays of a grid search at indices from 0 (negative indices are not modelled), with broadcasting, refusals and histories."
 },
 "C88": {
  "status": "partial",
  "note": "False of the module as it is: C88_refuted (itertools is not imported, so both methods always raise). With the name bound: unknown names raise IndexError; nd_project_stats is the projection on the named fit parameters when all spectral names are given (C88_stats_partial) and raises otherwise (C88_stats_refuted); nd_project_stat sums axes that drift (C88_stat), is the array itself when all are named (C88_stat_all) and wrong otherwise (C88_stat_refuted)."
 },
 "C89": {
  "status": "partial",
  "note": "Proved for axes whose lower bound is a multiple of the bin width (up to 1/1000 of it); C89_boundaries and C89_whole are the two common uses. Refuted on other axes: C89_unaligned_refuted. Requests in the last 1/50 of a bin before an edge are not covered (the code may take the next bin)."
 },
 "C90": {
  "status": "partial",
  "note": "Everything but the last count and the last value of the three maps, which are not drawn (C90_last_refuted); the refuted keywords, saving of penalties and the ROOT spectral plot never work. Colours and levels are not modelled."
 },
 "C91": {
  "status": "partial",
  "note": "Every reader of a file that went through any history of stopped saves gets what the file held before or an error. False in four ways, each shown: a spectrum of the old format at the root of the file comes back when an overwriting save is stopped; appending without overwrite (fit and limit results have no overwrite) can never be made again; a save that does not append loses everything else from its first step on; dump_ndarray stopped half way is loaded without any error. A loss of power that damages the HDF5 file itself is not modelled."
 },
 "C92": {
  "status": "partial",
  "note": "Everything is proved for EnergySmearLY and for Gaussian weights of EnergySmearRes. False, and shown: with Poisson statistics (the default) the weights of EnergySmearRes do not depend on the resolution that was set (always 200 photons per MeV), so their variance is not the square of get_sigma."
 },
 "C93": {
  "status": "partial",
  "note": "Exact for the first run of a fit (C93_refused, C93_accepted, C93_reasons). Later runs are not checked (C93_again_refuted), and the bounds of floating backgrounds are not part of the check (C93_floating_refuted)."
 },
 "C94": {
  "status": "partial",
  "note": "Old files load as written up to the order of the axes, which is that of the attributes in the file (the full statement when the axes are first mentioned in their order: C94_in_order). False of the code in general: C94_order_refuted, attributes listed by name exchange the axes, which no longer match the data. Files with regions of interest are not modelled."
 },
 "C95": {
  "status": "partial",
  "note": "Proved for fit results from every file. False of the code for limit results and spectra: C95_limit_size_refuted, C95_spectrum_size_refuted (arrays of any size are accepted); for limit results the number of places, the shape of the spectrum and the contents are proved (C95_limit_results_partial)."
 },
 "C96": {
  "status": "proved",
  "note": "All six statistics. Over the real numbers, as all statements about statistics."
 },
 "C97": {
  "status": "partial",
  "note": "Rebin, shrink, weighted smearing and projections: proved for all contents. Shifts by whole bins: proved for contents that are not negative, false otherwise (C97_shift_negative_refuted). Beyond the statement: interpolated shifts, stretches and cut do not add up (refuted)."
 },
 "C98": {
  "status": "partial",
  "note": "Proved for axes whose lower bound is a multiple of the bin width, for all bounds (those that ask for at least a hundredth of a bin on every axis). False on other axes, where each step moves the bounds: C98_steps_refuted."
 },
 "C99": {
  "status": "proved",
  "note": "The projection of a rebinned spectrum is the merged projection of the original; smearing an axis leaves projections onto the other axes unchanged under C22's condition that nothing is dropped at the upper end."
 },
 "C100": {
  "status": "proved",
  "note": "Every extractor that can be made, with both flags; the z-radial classes cannot be made (C29)."
 },
 "C101": {
  "status": "proved",
  "note": "Shifts by whole bins (up to what numpy.isclose tolerates) of spectra without negative contents, as the statement says."
 }
}