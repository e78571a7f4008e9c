{"id": "C01", "title": "Bin lookup partitions the axis", "statement": "For an axis [low, high) with n >= 1 bins, SpectraParameter.get_bin(x) returns, for every x with low <= x < high, the unique index i in 0..n-1 with low + i*w <= x < low + (i+1)*w where w = (high-low)/n, and raises ValueError for every x < low or x > high.", "quantifier": "all axes with low < high and n >= 1, all values x", "why_tests_cant": "the value range and the axis bounds are continuous; a test can only sample values, and off-by-one errors live exactly on bin edges", "anchors": ["echidna/core/parameter.py:SpectraParameter.get_bin", "echidna/core/parameter.py:Parameter.get_width"]}
{"id": "C02", "title": "Bin centres, bin edges and bin lookup agree", "statement": "For every axis and every valid bin index i: get_bin(get_bin_centre(i)) = i; get_bin_centre raises ValueError exactly for i < 0 or i >= n; get_bin_boundaries() returns n+1 strictly increasing edges starting at low and ending at high; get_bin_centres() returns exactly n values, the i-th being get_bin_centre(i).", "quantifier": "all axes, all bin indices", "why_tests_cant": "must hold for every number of bins and every width, not only for the widths used in tests", "anchors": ["echidna/core/parameter.py:SpectraParameter.get_bin_centre", "echidna/core/parameter.py:SpectraParameter.get_bin_centres", "echidna/core/parameter.py:SpectraParameter.get_bin_boundaries"]}
{"id": "C03", "title": "A fill changes exactly one bin, by exactly the weight", "statement": "A successful Spectra.fill(weight, values) adds weight to the single bin whose edges contain all the values and leaves every other bin, the configuration, num_decays and raw_events unchanged; it succeeds for every complete set of in-range values.", "quantifier": "all well-formed spectra of any dimension, all value assignments, all weights", "why_tests_cant": "the untouched bins are unboundedly many and the claim ranges over all dimensions and binnings", "anchors": ["echidna/core/spectra.py:Spectra.fill"]}
{"id": "C04", "title": "An invalid fill is rejected without effect", "statement": "fill raises Exception if a keyword is not a parameter of the spectrum or a parameter is missing, ValueError if a value is outside [low, high), and in every such case the spectrum is unchanged.", "quantifier": "all spectra and all keyword dictionaries", "why_tests_cant": "every combination of missing, unknown and out-of-range arguments must be covered", "anchors": ["echidna/core/spectra.py:Spectra.fill"]}
{"id": "C05", "title": "A history of fills is a histogram", "statement": "After any sequence of fill calls on an empty spectrum the content of every bin is the sum of the weights of the accepted fills whose values fall in that bin, sum() is the sum of all accepted weights, and the result does not depend on the order of the calls.", "quantifier": "all finite sequences of fill calls (accepted and rejected), all permutations of them", "why_tests_cant": "histories are unbounded", "anchors": ["echidna/core/spectra.py:Spectra.fill", "echidna/core/spectra.py:Spectra.sum"]}
{"id": "C06", "title": "project returns the marginal distribution", "statement": "project(d) returns an array with one entry per bin of d, entry i being the sum of all bins whose index on axis d is i; consequently its total equals sum().", "quantifier": "all spectra of any number of dimensions and any dimension name d in the configuration", "why_tests_cant": "the number of dimensions and bins is unbounded; tests use two or three dimensions", "anchors": ["echidna/core/spectra.py:Spectra.project"]}
{"id": "C07", "title": "nd_project returns the joint marginal of the requested dimensions", "statement": "nd_project(ds) returns the array, indexed by the requested dimensions, whose entries are the sums over all the other dimensions.", "quantifier": "all spectra with any number of dimensions, all lists of distinct dimension names", "why_tests_cant": "depends on which axes are dropped and in which order; the number of combinations is unbounded", "anchors": ["echidna/core/spectra.py:Spectra.nd_project"]}
{"id": "C08", "title": "surface returns the two-dimensional marginal", "statement": "surface(d1, d2) returns the 2-d array obtained by summing over every dimension other than d1 and d2.", "quantifier": "all spectra with at least two dimensions, all pairs of distinct dimensions", "why_tests_cant": "the defect, if any, appears only for particular numbers of dimensions", "anchors": ["echidna/core/spectra.py:Spectra.surface"]}
{"id": "C09", "title": "Rebinning merges neighbouring bins and conserves content", "statement": "If every new bin count divides the old one, rebin(new_bins) succeeds, each new bin holds the sum of the consecutive old bins it covers, low and high are unchanged and sum() is unchanged.", "quantifier": "all spectra of any rank, all valid new binnings", "why_tests_cant": "ranges over all shapes and all divisors", "anchors": ["echidna/core/spectra.py:Spectra.rebin"]}
{"id": "C10", "title": "Rebinning composes", "statement": "rebin(a) followed by rebin(b) gives the same data and configuration as rebin(b) directly; rebin to the current binning is the identity.", "quantifier": "all spectra, all chains of divisors", "why_tests_cant": "an algebraic law over all inputs", "anchors": ["echidna/core/spectra.py:Spectra.rebin"]}
{"id": "C11", "title": "A rejected rebin leaves the spectrum as it was", "statement": "If rebin raises, the spectrum (data and binning) is the one before the call, so the data shape still matches the configuration.", "quantifier": "all spectra, all invalid new binnings", "why_tests_cant": "which parameter is the first invalid one depends on the inputs; tests look only at the exception", "anchors": ["echidna/core/spectra.py:Spectra.rebin"]}
{"id": "C12", "title": "shrink keeps exactly the bins that overlap the requested range", "statement": "For an accepted shrink the new spectrum contains, bin for bin with unchanged content, exactly the old bins that overlap [low, high) of every shrunk dimension, the new bounds are the outer edges of the kept bins, and the bin width is unchanged.", "quantifier": "all spectra, all keyword dictionaries with bounds inside the existing ones and low < high", "why_tests_cant": "bin edges are continuous quantities and the correction branches depend on fractional positions", "anchors": ["echidna/core/spectra.py:Spectra.shrink", "echidna/core/parameter.py:SpectraParameter.round"]}
{"id": "C13", "title": "shrink without arguments is the identity", "statement": "shrink() with no keyword, or with the current bounds, changes neither data nor configuration.", "quantifier": "all spectra", "why_tests_cant": "must hold for all axes, including those whose lower bound is not a multiple of the bin width", "anchors": ["echidna/core/spectra.py:Spectra.shrink", "echidna/core/parameter.py:SpectraParameter.round"]}
{"id": "C14", "title": "A rejected shrink has no effect", "statement": "shrink raises IndexError for an unknown parameter or suffix, ValueError for a bound outside the current range, and in each case leaves the spectrum unchanged.", "quantifier": "all spectra, all keyword dictionaries", "why_tests_cant": "all combinations of valid and invalid keywords, in any iteration order", "anchors": ["echidna/core/spectra.py:Spectra.shrink"]}
{"id": "C15", "title": "cut keeps the content-per-decay ratio", "statement": "After a successful cut, num_decays has been multiplied by sum_after/sum_before; hence sum/num_decays is the same before and after, and scaling the cut spectrum to n gives sum = n * (sum/num_decays).", "quantifier": "all spectra with non-zero sum, all accepted cuts", "why_tests_cant": "a ratio law over all inputs", "anchors": ["echidna/core/spectra.py:Spectra.cut", "echidna/core/spectra.py:Spectra.shrink", "echidna/core/spectra.py:Spectra.scale"]}
{"id": "C16", "title": "shrink_to_roi records the true efficiency", "statement": "After shrink_to_roi(low, high, d) the stored ROI has the bounds of the shrunk axis and efficiency = sum_after/sum_before, which lies in [0, 1] for non-negative spectra.", "quantifier": "all spectra with positive sum", "why_tests_cant": "ranges over all data", "anchors": ["echidna/core/spectra.py:Spectra.shrink_to_roi", "echidna/core/spectra.py:Spectra.get_roi"]}
{"id": "C17", "title": "Scaling is a group action of the number of decays", "statement": "scale(n) multiplies every bin by n/num_decays and sets num_decays to n; scale(a) then scale(b) equals scale(b) for a != 0; scale(n) then scale(old num_decays) restores the spectrum; it fails when num_decays is zero.", "quantifier": "all spectra with non-zero num_decays and all targets", "why_tests_cant": "algebraic law over all values", "anchors": ["echidna/core/spectra.py:Spectra.scale"]}
{"id": "C18", "title": "add is the bin-wise sum and is rejected atomically", "statement": "An accepted add(other) adds the contents bin by bin, adds num_decays and raw_events, keeps the configuration, so sum() is additive; other is unchanged; a rejected add leaves the spectrum unchanged; adding in either order gives the same data, num_decays and raw_events.", "quantifier": "all pairs of spectra", "why_tests_cant": "ranges over all pairs of configurations", "anchors": ["echidna/core/spectra.py:Spectra.add"]}
{"id": "C19", "title": "add only combines bins that represent the same region", "statement": "If add accepts, then each bin of the other spectrum that is added to a bin of this one covers the same interval (up to the documented tolerance) of every parameter of this spectrum, including its position in the array.", "quantifier": "all pairs of spectra, including those listing the same parameters in another order", "why_tests_cant": "the defect depends on the order in which parameters were declared", "anchors": ["echidna/core/spectra.py:Spectra.add", "echidna/core/config.py:SpectraConfig.get_dims", "echidna/core/config.py:SpectraConfig.get_dim", "echidna/core/config.py:SpectraConfig.get_dim_type"]}
{"id": "C20", "title": "Data shape always matches the configuration", "statement": "For a spectrum with its own configuration, after any sequence of fill, scale, add, shrink, cut, rebin and shrink_to_roi calls (each accepted) the data array has exactly the shape given by the configuration's bin counts, and contents stay non-negative if all weights and scalings are.", "quantifier": "all operation histories", "why_tests_cant": "unbounded histories", "anchors": ["echidna/core/spectra.py:Spectra", "echidna/core/config.py:Config.get_shape"]}
{"id": "C21", "title": "Spectra are independent of each other", "statement": "An operation on one spectrum does not change the observable state (data, axis bounds, binning, consistency) of any other spectrum.", "quantifier": "all heaps of spectra and all interleavings of operations on them", "why_tests_cant": "aliasing through a shared configuration object depends on how the spectra were created or copied", "anchors": ["echidna/core/spectra.py:Spectra.__init__", "echidna/core/spectra.py:Spectra.shrink", "echidna/core/spectra.py:Spectra.rebin", "echidna/fit/fit.py:Fit.make_fixed_background"]}
{"id": "C22", "title": "Weighted smearing never creates and, inside the axis, never loses events", "statement": "weighted_smear moves the content of every bin to bins within num_sigma standard deviations on the same line of the smeared axis: the total never increases for non-negative spectra, contents stay non-negative, and the total of every bin whose window contains a bin centre is conserved exactly.", "quantifier": "all spectra (1-3 dimensions), all resolutions, all num_sigma, all positive weight functions", "why_tests_cant": "depends on window edges relative to the bin edges, for every axis and resolution", "anchors": ["echidna/core/smear.py:EnergySmearLY.weighted_smear", "echidna/core/smear.py:EnergySmearRes.weighted_smear", "echidna/core/smear.py:RadialSmear.weighted_smear"]}
{"id": "C23", "title": "Random smearing never creates events", "statement": "random_smear yields a spectrum whose total is at most the number of entries drawn, whatever values the random generator returns, and every drawn value that is in range is counted in the bin that contains it.", "quantifier": "all spectra and all outcomes of the random generator", "why_tests_cant": "the generator's outcomes are unbounded; a test sees one draw", "anchors": ["echidna/core/smear.py:EnergySmearLY.random_smear", "echidna/core/smear.py:RadialSmear.random_smear"]}
{"id": "C24", "title": "Re-smearing arithmetic composes resolutions", "statement": "Smearing a spectrum of resolution cur with the resolution returned by calc_smear_resoluton(new, cur) gives variance equal to that of resolution new at every energy, and likewise calc_smear_ly for light yields; both raise ValueError when the new resolution is better than the current one.", "quantifier": "all positive resolutions and light yields", "why_tests_cant": "continuous parameters", "anchors": ["echidna/core/smear.py:EnergySmearLY.calc_smear_ly", "echidna/core/smear.py:EnergySmearRes.calc_smear_resoluton"]}
{"id": "C25", "title": "Shifting by whole bins translates the histogram", "statement": "shift by an integral number k of bin widths moves the content of every bin i to bin i+k, drops what leaves the axis, fills with zero what enters, and keeps num_decays; a zero shift is the identity and a shift by a then by b drops no more than is outside the axis.", "quantifier": "all spectra with non-negative content, all integers k of either sign", "why_tests_cant": "edge handling for every k and every number of bins", "anchors": ["echidna/core/shift.py:Shift.shift", "echidna/core/shift.py:Shift.shift_by_bin"]}
{"id": "C26", "title": "Interpolated shift and scale preserve normalisation", "statement": "An interpolated shift, and any scale of an axis, gives a spectrum with the same total and the same num_decays as before, whatever the interpolation returns, provided the transformed spectrum is not empty.", "quantifier": "all spectra, all shifts and scale factors, all interpolation functions", "why_tests_cant": "the spline output cannot be enumerated", "anchors": ["echidna/core/shift.py:Shift.shift", "echidna/core/scale.py:Scale.scale"]}
{"id": "C27", "title": "Ntuple filling counts every usable entry exactly once", "statement": "fill_from_ntuple returns a spectrum with num_decays equal to the number of entries (or the given value), raw_events equal to the number of entries that are valid, in range and accepted, and sum() equal to raw_events.", "quantifier": "all ntuples (any number of entries), all configurations", "why_tests_cant": "ranges over all event streams", "anchors": ["echidna/core/fill_spectrum.py:fill_from_ntuple", "echidna/core/dsextract.py:function_factory"]}
{"id": "C28", "title": "The BiPo cut keeps exactly the single-trigger decays", "statement": "With the bipo cut, an entry is counted if and only if it is the first trigger of its decay, is valid and in range, and is not followed by a retrigger of the same decay.", "quantifier": "all event streams", "why_tests_cant": "depends on the position in the stream, in particular on its last entry", "anchors": ["echidna/core/fill_spectrum.py:_bipo_ntuple"]}
{"id": "C29", "title": "The fiducial cut removes exactly the events outside the radius", "statement": "With a fiducial radius, an extractor declares valid exactly the reconstructed/MC-tagged events whose (selected) position is at distance < radius; every dimension name accepted by the documentation gives an extractor, and radial3 is monotone in the radius and in [0,1] inside the outer radius.", "quantifier": "all events, all radii, all dimension names", "why_tests_cant": "continuous positions; unusual settings such as zero radius", "anchors": ["echidna/core/dsextract.py:function_factory", "echidna/core/dsextract.py:EnergyExtractMC.get_valid_ntuple", "echidna/core/dsextract.py:EnergyExtractReco.get_valid_ntuple"]}
{"id": "C30", "title": "The Baker-Cousins statistics measure disagreement", "statement": "For non-negative observed and expected spectra BakerCousinsChi and BakerCousinsLL are >= 0, are zero if expected equals observed (all positive), and are zero only if they are equal in every bin.", "quantifier": "all pairs of arrays of any length", "why_tests_cant": "an inequality over all real vectors", "anchors": ["echidna/fit/test_statistic.py:BakerCousinsChi", "echidna/fit/test_statistic.py:BakerCousinsLL"]}
{"id": "C31", "title": "Chi is twice the log likelihood", "statement": "For all positive expected values BakerCousinsChi(o, e) = 2 * BakerCousinsLL(o, e), and differences of BakerCousinsLL and ExtendedLL between two hypotheses on the same data agree.", "quantifier": "all pairs of arrays", "why_tests_cant": "identity over all vectors", "anchors": ["echidna/fit/test_statistic.py:BakerCousinsChi", "echidna/fit/test_statistic.py:BakerCousinsLL", "echidna/fit/test_statistic.py:ExtendedLL"]}
{"id": "C32", "title": "The total statistic is the sum of the per-bin statistics", "statement": "For every test statistic the total value returned in total mode equals the sum of the array returned in per-bin mode on the same inputs.", "quantifier": "all statistics classes, all pairs of arrays", "why_tests_cant": "the two modes are separate code paths that must agree for all data, including zeros", "anchors": ["echidna/fit/test_statistic.py:TestStatistic.compute_statistic"]}
{"id": "C33", "title": "Malformed inputs to a statistic are rejected", "statement": "compute_statistic raises TypeError when an argument is not one-dimensional and ValueError when lengths differ, and returns a value otherwise.", "quantifier": "all shapes", "why_tests_cant": "ranges over all shapes", "anchors": ["echidna/fit/test_statistic.py:TestStatistic.compute_statistic"]}
{"id": "C34", "title": "Computing a statistic does not alter the data", "statement": "compute_statistic leaves both input arrays unchanged, so evaluating it twice gives the same answer.", "quantifier": "all statistics classes, all pairs of arrays", "why_tests_cant": "in-place modification appears only for arrays with zero bins", "anchors": ["echidna/fit/test_statistic.py:Neyman", "echidna/fit/test_statistic.py:Pearson", "echidna/fit/test_statistic.py:BakerCousinsLL"]}
{"id": "C35", "title": "Penalty terms are quadratic in the pull", "statement": "The penalty of a parameter is ((value-prior)/sigma)^2 for chi-squared type statistics and half of it for likelihoods: non-negative, zero exactly at the prior, symmetric about it and strictly increasing with the distance from the prior.", "quantifier": "all values, priors and non-zero sigmas", "why_tests_cant": "continuous parameters", "anchors": ["echidna/fit/test_statistic.py:TestStatistic.get_penalty_term"]}
{"id": "C36", "title": "Parameter grids cover the documented range", "statement": "get_values() of a linear parameter has exactly bins values, equally spaced and strictly increasing from low to high inclusive; for logscale they are equally spaced in the logarithm from low to high inclusive; logscale_deviation contains the prior and lies between low and high.", "quantifier": "all parameters with low < high and any number of bins", "why_tests_cant": "ranges over all bounds and bin numbers, including the degenerate ones", "anchors": ["echidna/core/parameter.py:FitParameter.get_values"]}
{"id": "C37", "title": "Value lookup inverts the grid", "statement": "get_value_index(get_value_at(i)) = i for every grid with distinct values; it raises for a value that is not in the grid.", "quantifier": "all parameters, all indices", "why_tests_cant": "ranges over all grids", "anchors": ["echidna/core/parameter.py:FitParameter.get_value_index", "echidna/core/parameter.py:FitParameter.get_value_at"]}
{"id": "C38", "title": "Applying a rate is idempotent and forgets earlier rates", "statement": "Applying a rate parameter with value r leaves a spectrum with num_decays r; applying a sequence of non-zero rates is the same as applying only the last.", "quantifier": "all spectra, all sequences of rate values", "why_tests_cant": "histories of grid steps are unbounded", "anchors": ["echidna/core/parameter.py:RateParameter.apply_to", "echidna/core/spectra.py:Spectra.scale"]}
{"id": "C39", "title": "Pre-convolved file names identify the systematic values", "statement": "get_pre_convolved yields the same directory and file name when applied twice with the same value, replaces only the token of its own systematic, and gives different file names for different values.", "quantifier": "all directories, file names and values", "why_tests_cant": "string manipulation over all names", "anchors": ["echidna/core/parameter.py:ResolutionParameter.get_pre_convolved", "echidna/core/parameter.py:ScaleParameter.get_pre_convolved", "echidna/core/parameter.py:ShiftParameter.get_pre_convolved"]}
{"id": "C40", "title": "find_minimum returns the first global minimum", "statement": "find_minimum on a grid of statistic values returns the smallest value of the grid and the index of its first occurrence in row-major order, i.e. it agrees with nanmin/argmin.", "quantifier": "all grids of any rank and shape", "why_tests_cant": "a search with early exits over grids of unbounded size", "anchors": ["echidna/fit/minimise.py:GridSearch.find_minimum", "echidna/fit/minimise.py:GridSearch._update_coords"]}
{"id": "C41", "title": "The grid search visits every grid point exactly once", "statement": "minimise calls the objective exactly once for every combination of parameter values, in row-major order, with those values as arguments, and stores each result at its own grid position.", "quantifier": "all lists of parameters with any number of values", "why_tests_cant": "the recursion depth is the number of parameters, which is unbounded", "anchors": ["echidna/fit/minimise.py:GridSearch._get_fit_par_values", "echidna/fit/minimise.py:GridSearch._get_values", "echidna/fit/minimise.py:GridSearch.minimise"]}
{"id": "C42", "title": "The grid search returns a global minimiser", "statement": "minimise returns the smallest value of statistic plus penalties over the whole grid, and the best fit values it records are a grid point at which the objective has that value.", "quantifier": "all objectives, all parameter grids", "why_tests_cant": "global optimality quantifies over every grid point and every objective function", "anchors": ["echidna/fit/minimise.py:GridSearch.minimise", "echidna/fit/fit_results.py:FitResults"]}
{"id": "C43", "title": "Stored fit results can be read back at every grid point", "statement": "After a grid search, for every grid point the stored statistic, penalty and parameter value are those computed at that point.", "quantifier": "all grids and objectives with distinct parameter values", "why_tests_cant": "one must check every cell of arbitrary grids", "anchors": ["echidna/fit/minimise.py:GridSearch.get_stat", "echidna/fit/fit_results.py:FitResults"]}
{"id": "C44", "title": "The array limit is the first crossing", "statement": "get_array_limit(array, limit) returns the signal scaling at the first entry of the array that exceeds the limit, raises LimitError exactly when none does, and CompatibilityError when the lengths differ; for a non-decreasing statistic every earlier scaling is allowed and every later one is excluded.", "quantifier": "all arrays, all limits", "why_tests_cant": "ranges over all arrays", "anchors": ["echidna/limit/limit.py:Limit.get_array_limit"]}
{"id": "C45", "title": "The limit is the first scaling after the minimum that is excluded", "statement": "get_limit returns the first signal scaling at or after the one with the smallest statistic whose statistic, penalty terms included, exceeds that of the fit without signal (or the min_stat given) by more than the requested threshold, and raises LimitError when no scaling does; a larger threshold never gives a smaller limit; an exception of a fit is passed on.", "quantifier": "all statistics curves, all thresholds", "why_tests_cant": "ranges over all curves", "anchors": ["echidna/limit/limit.py:Limit.get_limit"]}
{"id": "C46", "title": "Dictionary strings round-trip", "statement": "string_to_dict(dict_to_string(d)) = d for every dictionary of the kind stored with a spectrum.", "quantifier": "all dictionaries of strings/ROI dictionaries", "why_tests_cant": "string contents are unbounded, including those containing the separators", "anchors": ["echidna/output/store.py:dict_to_string", "echidna/output/store.py:string_to_dict"]}
{"id": "C47", "title": "Storing and loading a spectrum is lossless", "statement": "load(dump(s)) gives a spectrum with the same name, data, configuration, fit configuration, num_decays, raw_events, bipo flag, style, ROIs and background name.", "quantifier": "all spectra", "why_tests_cant": "ranges over all data and configurations", "anchors": ["echidna/output/store.py:dump", "echidna/output/store.py:load"]}
{"id": "C48", "title": "Dumping never damages other groups of a file", "statement": "dump with append keeps every other group of the file readable and unchanged, refuses to replace an existing group unless overwrite is given, and without append the file holds only the new group.", "quantifier": "all files and all sequences of dumps", "why_tests_cant": "histories of dumps are unbounded", "anchors": ["echidna/output/store.py:dump", "echidna/output/store.py:dump_ndarray"]}
{"id": "C49", "title": "Configuration dump and load round-trip", "statement": "Loading the dictionary dumped from a SpectraConfig, SpectraFitConfig or GlobalFitConfig gives a configuration with the same parameters, values and fit results.", "quantifier": "all configurations", "why_tests_cant": "ranges over all parameter sets and optional fields", "anchors": ["echidna/core/config.py:SpectraConfig.dump", "echidna/core/config.py:SpectraConfig.load", "echidna/core/config.py:GlobalFitConfig.dump", "echidna/core/config.py:GlobalFitConfig.load", "echidna/core/parameter.py:FitParameter.to_dict"]}
{"id": "C50", "title": "Parameter indices, names and shapes are consistent", "statement": "For every configuration get_par_by_index(get_index(p)) is p, get_shape lists the bin numbers in the order of get_pars, get_index raises IndexError exactly for unknown names, and the global and spectral parameters of a GlobalFitConfig partition its parameters.", "quantifier": "all configurations, all histories of add_par/add_config", "why_tests_cant": "histories of additions are unbounded", "anchors": ["echidna/core/config.py:Config.get_index", "echidna/core/config.py:Config.get_par_by_index", "echidna/core/config.py:Config.get_shape", "echidna/core/config.py:GlobalFitConfig.add_config"]}
{"id": "C51", "title": "Decay conversions are mutually inverse", "statement": "half_life <-> activity, activity <-> counts, counts <-> half-life and counts <-> effective mass conversions are mutually inverse, monotone in the documented direction, and reject non-positive live times and masses.", "quantifier": "all positive physical inputs", "why_tests_cant": "continuous parameters", "anchors": ["echidna/calc/decay.py:DBIsotope"]}
{"id": "C52", "title": "The fitted spectrum is the sum of its parts", "statement": "For every assignment of parameter values, the expected spectrum compared with data is the projection of the fixed background plus every floating background, each with all its global and spectral parameters applied, plus the signal, likewise with all parameters applied.", "quantifier": "all fits with any number of backgrounds and parameters, all parameter values", "why_tests_cant": "ranges over all parameter sets; single-parameter tests cannot see a dropped parameter", "anchors": ["echidna/fit/fit.py:Fit._funct"]}
{"id": "C53", "title": "Setting the ROI restricts every spectrum equally", "statement": "After fit preparation all spectra used in the fit have the binning of the data on the ROI dimensions, and the caller's original spectra are unaffected by building the fixed background.", "quantifier": "all fits", "why_tests_cant": "depends on aliasing between spectra", "anchors": ["echidna/fit/fit.py:Fit.check_all_spectra", "echidna/fit/fit.py:Fit.make_fixed_background", "echidna/fit/fit.py:Fit.shrink_all"]}
{"id": "C54", "title": "Merging files is independent of the order", "statement": "combine_hdf5 on a list of compatible spectra gives the bin-wise total, total num_decays and total raw_events, whatever the order of the files.", "quantifier": "all lists of spectra, all permutations", "why_tests_cant": "unbounded lists", "anchors": ["echidna/scripts/combine_hdf5.py", "echidna/core/spectra.py:Spectra.add"]}
{"id": "C55", "title": "Fill index stays inside the array in floating point", "statement": "In IEEE binary64 arithmetic, a value accepted by the range check low <= v < high is always filled into a bin that exists.", "quantifier": "all binary64 values and bounds", "why_tests_cant": "the failing inputs are single floating point numbers next to the upper edge", "anchors": ["echidna/core/spectra.py:Spectra.fill"]}
{"id": "C56", "title": "The background name is derived from the spectrum name", "statement": "get_background_name returns an explicitly set name unchanged; otherwise for a name of the form <background>_<mc|mix|reco>... it returns <background>, it is stable under repeated calls and raises ValueError exactly when none of the markers occurs.", "quantifier": "all names", "why_tests_cant": "strings are unbounded; the markers may occur inside the background's own name", "anchors": ["echidna/core/spectra.py:Spectra.get_background_name"]}
{"id": "C57", "title": "ROOT filling counts every entry or trigger once", "statement": "fill_from_root counts, for a configuration with only mc/truth parameters, every usable entry exactly once, and for a configuration with a reco parameter every usable trigger exactly once (mc parameters read from the entry), in raw_events, in sum() and in the bin it lies in; with the bipo cut only entries with exactly one trigger are considered; a parameter of any other type raises IndexError.", "quantifier": "all ROOT files (any number of entries and triggers), all configurations", "why_tests_cant": "ranges over all event streams; values read for one trigger must not leak into the next", "anchors": ["echidna/core/fill_spectrum.py:fill_from_root", "echidna/core/fill_spectrum.py:_root_mix", "echidna/core/fill_spectrum.py:_root_ev", "echidna/core/fill_spectrum.py:_root_mc"]}
{"id": "C58", "title": "set_par of a fit parameter takes effect and rebuilds its grid", "statement": "After a successful set_par every given attribute has its new value and the next get_values is the grid of the new attributes, whatever was cached before; a rejected call changes nothing; sigma may be set to None and the scale flags may be changed.", "quantifier": "all parameters, all sequences of keyword arguments", "why_tests_cant": "depends on which keywords precede a rejected one and on the history of the cached grid", "anchors": ["echidna/core/parameter.py:FitParameter.set_par", "echidna/core/parameter.py:FitParameter.get_values"]}
{"id": "C59", "title": "Resetting a grid search makes it as good as new", "statement": "After reset_grids a grid search behaves like a newly created one with the same parameters: the next minimise succeeds and gives the same results.", "quantifier": "all grid searches, per bin or not, named or not, any history", "why_tests_cant": "depends on how the search was constructed and on its history", "anchors": ["echidna/fit/minimise.py:GridSearch.reset_grids", "echidna/fit/minimise.py:GridSearch.minimise"]}
{"id": "C60", "title": "Configuration files round-trip", "statement": "For every configuration, dump_to_file followed by load_from_file of the same path(s) gives what load gives for the dumped dictionaries, global and spectral parameters go to separate files, other files are unchanged, and a blank name given to load_from_file uses the name of the file.", "quantifier": "all configurations, file systems, paths and file names", "why_tests_cant": "depends on how names given, blank names and defaults combine; any other file may exist", "anchors": ["echidna/core/config.py:GlobalFitConfig.dump_to_file", "echidna/core/config.py:GlobalFitConfig.load_from_file", "echidna/core/config.py:SpectraFitConfig.dump_to_file", "echidna/core/config.py:SpectraConfig.load_from_file"]}
{"id": "C61", "title": "Storing and loading fit results is lossless", "statement": "load_fit_results(dump_fit_results(fr)) gives results with the same name, grid of statistics, penalty grid, number of resets, per-bin flag, spectra configuration and fit parameters (in the order of the grid's axes).", "quantifier": "all fit results, any other content of the file", "why_tests_cant": "ranges over all grids and configurations; the order of the axes depends on the order in which the parameters were added", "anchors": ["echidna/output/store.py:dump_fit_results", "echidna/output/store.py:load_fit_results"]}
{"id": "C62", "title": "Storing and loading limit results is lossless", "statement": "load_limit_results(dump_limit_results(lr)) gives the same name, configurations, statistics, penalty terms, best fits and, for every signal value, the same fit result or none.", "quantifier": "all limit results, any number of signal values and fit results", "why_tests_cant": "ranges over all grids, including all-zero ones, which are not written", "anchors": ["echidna/output/store.py:dump_limit_results", "echidna/output/store.py:load_limit_results", "echidna/fit/fit_results.py:LimitResults.__init__"]}
{"id": "C63", "title": "Objects holding arrays round-trip", "statement": "load_ndarray(dump_ndarray(o)) restores every array and every value of the object's attributes.", "quantifier": "all objects", "why_tests_cant": "ranges over all sets of attributes and the state of the object that is read into", "anchors": ["echidna/output/store.py:dump_ndarray", "echidna/output/store.py:load_ndarray"]}
{"id": "C64", "title": "Evaluating the fit function leaves it unchanged", "statement": "The statistic and penalty that the fit function returns for given parameter values are the same after any number of evaluations with other values, whatever they computed and kept; so a grid search run on the fit stores at each grid point the value computed from the original spectra and returns the first smallest one.", "quantifier": "all fits, histories of evaluations, parameter values, statistics, penalty functions and grids", "why_tests_cant": "the fit keeps convolved spectra in a dictionary and scales, shrinks and rebins spectra in place, so any earlier evaluation may have an effect", "anchors": ["echidna/fit/fit.py:Fit._funct", "echidna/fit/fit.py:Fit.shrink_to_data", "echidna/fit/minimise.py:GridSearch.minimise"]}
{"id": "C65", "title": "Transformations commute with the normalisation", "statement": "Smearing (weighted), shifting, stretching, rebinning or shrinking a spectrum scaled to any positive multiple of its decays gives the same spectrum, with the same outcome, as scaling the transformed one; its projections are the multiples of the original projections.", "quantifier": "all spectra, numbers of decays, resolutions, weights, shifts, stretch factors, ranges and binnings, and all interpolations linear in the contents", "why_tests_cant": "ranges over all contents and normalisations; the code takes branches on the signs of sums of contents and divides by interpolated areas", "anchors": ["echidna/core/spectra.py:Spectra.scale", "echidna/core/smear.py:EnergySmearLY.weighted_smear", "echidna/core/shift.py:Shift.shift", "echidna/core/scale.py:Scale.scale", "echidna/core/spectra.py:Spectra.rebin", "echidna/core/spectra.py:Spectra.shrink", "echidna/core/spectra.py:Spectra.nd_project"]}
{"id": "C66", "title": "Scaling, removing and restoring the signal leaves no trace", "statement": "While a limit calculation scales the signal of a fit, removes it and puts it back between evaluations, the observed and expected spectra of every evaluation are those computed from the spectra the fit was given, with the original signal scaled to the number of decays asked for last (or without signal).", "quantifier": "all fits with a signal, all interleavings of evaluations with scalings, removals and returns of the signal, all parameter values", "why_tests_cant": "the fit keeps convolved signals in a dictionary and rescales them in place, so the result may depend on any earlier evaluation and scaling", "anchors": ["echidna/fit/fit.py:Fit._funct", "echidna/fit/fit.py:Fit.remove_signal", "echidna/fit/fit.py:Fit.set_signal", "echidna/limit/limit.py:Limit.get_limit", "echidna/core/spectra.py:Spectra.scale"]}
{"id": "C67", "title": "A limit is determined by the best fits to the original spectra", "statement": "get_limit returns the first signal scaling, from the one with the smallest statistic on, at which the best-fit statistic, less that without signal, plus the penalties exceeds the threshold, where every best fit is the first smallest value over the parameter grid computed from the spectra the fit was given; it returns the same after any evaluations, scalings and limit calculations made before.", "quantifier": "all fits, parameter grids, signal scalings, thresholds, statistics and histories of evaluations, scalings and limit calculations", "why_tests_cant": "composes the fit function, the stored convolutions, the grid search and the rescaling of the signal over unboundedly many fits", "anchors": ["echidna/limit/limit.py:Limit.get_limit", "echidna/fit/fit.py:Fit.fit", "echidna/fit/fit.py:Fit.check_fitter", "echidna/fit/minimise.py:GridSearch.minimise", "echidna/fit/fit_results.py:FitResults.get_summary"]}
{"id": "C68", "title": "The conversion scripts write the transformed spectrum and nothing else", "statement": "Each script that converts a file (scale, shift, smear, smear energy, shrink, rebin) reads the spectrum of the named file, applies the transformation its options name, and writes exactly one file, named after the input and the options, from which the transformed spectrum is read back with all its other attributes; if the transformation is refused no file changes; the input file and all other files stay as they are.", "quantifier": "all file systems, paths with a directory, spectra in the input, option values and outcomes of the transformation", "why_tests_cant": "depends on the path, every option value and every spectrum in the file, and on all files that were there before", "anchors": ["echidna/scripts/dump_scaled.py:main", "echidna/scripts/dump_shifted.py:main", "echidna/scripts/dump_smeared.py:main", "echidna/scripts/dump_smeared_energy.py:main", "echidna/scripts/dump_shrink.py:main", "echidna/scripts/rebin.py:main", "echidna/output/store.py:dump", "echidna/output/store.py:load"]}
{"id": "C69", "title": "A fit that loads convolved spectra finds the files the scripts write", "statement": "If the scale and energy smearing scripts are run one after the other on the file of a spectrum, in the order of the fit's global parameters and into the folders named after dimension and systematic, then a fit with use_pre_made loads, for these parameter values, exactly the spectrum with all the parameters applied in that order; this holds for every combination of a whole grid of values, whose files never collide; the original file stays as it is and a script whose transformation is refused fails with that error.", "quantifier": "all file systems, base directories, file names, lists of scale and resolution parameters with distinct marks, values and orders in which the combinations are prepared", "why_tests_cant": "two independent pieces of code build the same path from strings of arbitrary length, for every value and every number of parameters", "anchors": ["echidna/fit/fit.py:Fit.load_pre_made", "echidna/core/parameter.py:ResolutionParameter.get_pre_convolved", "echidna/core/parameter.py:ScaleParameter.get_pre_convolved", "echidna/scripts/dump_scaled.py:main", "echidna/scripts/dump_smeared_energy.py:main"]}
{"id": "C70", "title": "With convolved spectra from files the fit function depends on files, spectra and values only", "statement": "In a fit with use_pre_made, after any sequence of evaluations, the expected spectrum at given parameter values is the fixed background plus, for every floating background and the signal, the spectrum in the file for the values of the global parameters, scaled to the decays of the spectrum it stands for, cut and rebinned to the axes of the data, with the background's own parameters applied; a missing file gives the same error whatever was evaluated before; the spectra the fit was given are never changed; with the files written by the scripts this is the original spectrum with all global parameters applied; without global parameters the option has no effect.", "quantifier": "all fits, spectra, file systems, base directories and sequences of parameter values", "why_tests_cant": "the fit keeps a cache of loaded spectra that share configurations with derived ones and are rescaled and cut in place, so the result could depend on the whole history", "anchors": ["echidna/fit/fit.py:Fit._funct", "echidna/fit/fit.py:Fit.load_pre_made", "echidna/output/store.py:load"]}
{"id": "C71", "title": "The filling scripts count every usable event once and write one file per spectrum", "statement": "dump_spectra_ntuple writes, for an ntuple or for each ntuple listed in a text file, a file named after it whose spectrum counts every usable entry exactly once and has as many decays as the ntuple has entries; multi_ntuple_spectrum does the same for all files of a directory together, whatever the order in which they are listed and however the entries are divided among them; dump_spectra_root does the same for ROOT files; nothing else is changed, and an outer radius without a radial3 axis is refused before anything is written.", "quantifier": "all event files, directories, listings, configurations, radii, BiPo options, names and files that were there before", "why_tests_cant": "depends on every event of unboundedly many files, on the order of the directory listing and on the text of every path", "anchors": ["echidna/scripts/dump_spectra_ntuple.py:read_and_dump_ntuple", "echidna/scripts/multi_ntuple_spectrum.py:create_combined_ntuple_spectrum", "echidna/scripts/dump_spectra_root.py:read_and_dump_root", "echidna/core/fill_spectrum.py:fill_from_ntuple", "echidna/output/store.py:dump"]}
{"id": "C72", "title": "A picture of a spectrum shows its counts on its axes", "statement": "The histogram drawn for a dimension of a spectrum, with ROOT or with matplotlib, has the bins of that axis, and each bin holds exactly the counts of the spectrum with that coordinate, none of them in the underflow or overflow; the picture of two dimensions likewise, whichever of them is named first; a spectral plot shows every given spectrum, the sum of the backgrounds and the sum of all of them, each on its own axis, and refuses spectra with different axes.", "quantifier": "all spectra, numbers of dimensions, axes, bin contents, dictionaries of spectra and choices of what is background", "why_tests_cant": "the heights depend on every bin of spectra with any number of dimensions and on the position of every bin centre relative to every edge, for every axis; a few rounded widths give one centre too many", "anchors": ["echidna/output/plot_root.py:plot_projection", "echidna/output/plot_root.py:plot_surface", "echidna/output/plot.py:plot_projection", "echidna/output/plot.py:spectral_plot", "echidna/output/plot.py:plot_surface", "echidna/output/plot.py:_produce_axis", "echidna/output/plot.py:_produce_bins"]}
{"id": "C73", "title": "The results of a limit calculation give back what was last set, and the graphs show it", "statement": "After any sequence of calls that set best fits, penalty terms and statistics, every way of reading the results - one value, the values of a parameter, the penalties at a scaling, the statistic with its penalties - gives the values set last for that scaling and parameter, zero if none was, with negative indices counted from the end; a call with an unknown parameter or scaling raises and changes nothing; each graph has one point for each scaling with the value read there, and drawing leaves the results as they are.", "quantifier": "all fit configurations, numbers of scalings, sequences of calls, indices and parameter names", "why_tests_cant": "the value read depends on the whole history of calls, on aliasing between returned and stored arrays and on the position of a name in a configuration of any size", "anchors": ["echidna/fit/fit_results.py:LimitResults", "echidna/output/plot_root.py:plot_stats_vs_scale", "echidna/output/plot_root.py:plot_best_fit_vs_scale", "echidna/output/plot_root.py:plot_sigma_best_fit_vs_scale", "echidna/output/plot_root.py:plot_penalty_term_vs_scale"]}
{"id": "C74", "title": "A picture of the results of a grid fit shows the statistics and penalties it recorded", "statement": "The table of the statistic over two parameters, with or without penalties, has the axes of these parameters and in each cell the value the fit recorded at that combination, whichever parameter is named first; a graph over one parameter has one point for each of its values; the per-bin picture at chosen values or at the best fit shows the statistic of each spectral bin on the axes of the spectrum; parameters not drawn can be fixed by keyword.", "quantifier": "all grid fits, numbers of parameters, value grids, recorded statistics and penalties, orders of the names and keywords", "why_tests_cant": "every cell of tables of arbitrary size has to be at its place and every penalty is found by looking up values with a tolerance", "anchors": ["echidna/output/plot_root.py:plot_raw_stats_vs_pars", "echidna/output/plot_root.py:plot_stats_vs_pars", "echidna/output/plot_root.py:plot_stats_vs_par_scale", "echidna/output/plot_root.py:plot_penalty_term_vs_par_scale", "echidna/output/plot_root.py:plot_per_bin", "echidna/fit/minimise.py:GridSearch.get_raw_stats", "echidna/fit/minimise.py:GridSearch.get_penalty_terms"]}
{"id": "C75", "title": "Limits of several signals from one fit do not depend on each other", "statement": "With one fit and several signals, each with its own Limit, get_limit gives for each signal the limit that follows from the spectra as they were given, whatever was done before: limits made for other signals (restricting them to the region or not), limits asked for in any order and any number of times, signals scaled, removed, put back and exchanged, the fit evaluated at any values. An evaluation sees, of the signals, only the one selected last, at the number of decays asked for last.", "quantifier": "all fits, lists of signals with distinct objects and names, sequences of operations, scalings and thresholds", "why_tests_cant": "the fit, its cache of convolved spectra, the grid search and all spectra are shared and changed in place by every operation, so the answer could depend on the whole history", "anchors": ["echidna/limit/limit.py:Limit.__init__", "echidna/limit/limit.py:Limit.get_limit", "echidna/fit/fit.py:Fit.set_signal", "echidna/fit/fit.py:Fit.remove_signal", "echidna/fit/fit.py:Fit.fit", "echidna/scripts/klz_majoron_limits.py:main"]}
{"id": "C76", "title": "Counting in float64 is exact up to 2^53", "statement": "Filled event by event with the default weight, in any order of the events, each bin holds exactly the number of events that fall into it and sum() the number of events inside the axes, as long as no more than 2^53 events are filled. The same is true of every history of fills with whole-number weights, additions, shrinks, cuts and rebinnings, and of sums and projections, whatever order numpy adds in: the contents and the exceptions are those of exact arithmetic. At 2^53 counts a bin stops counting, and with fractional weights the contents depend on the order of the fills.", "quantifier": "all axes, events, whole-number weights, histories of operations, orders of summation", "why_tests_cant": "float64 rounds after every addition and numpy chooses the order of its sums, so exactness has to be shown for every history and every order", "anchors": ["echidna/core/spectra.py:Spectra.fill", "echidna/core/spectra.py:Spectra.add", "echidna/core/spectra.py:Spectra.cut", "echidna/core/spectra.py:Spectra.rebin", "echidna/core/spectra.py:Spectra.sum", "echidna/core/spectra.py:Spectra.nd_project"]}
{"id": "C77", "title": "Rounding moves a spectrum by at most 2^-53 per operation", "statement": "After any history of fills, additions, scalings, shrinks, cuts and rebinnings with numbers that are not negative, every bin and the number of decays are within a factor (1 + 2^-53)^k of what exact arithmetic gives, where k counts the roundings on the way (one for a fill or an addition, two for a scaling, n - 1 for a sum of n numbers at most), as long as nothing overflows or underflows; the same operations raise. A spectrum that was scaled k times is within a relative error of 2k * 2^-52 of its first content times the ratio of the last and the first number of decays, however the targets jump. Scaling there and back need not give the contents back.", "quantifier": "all spectra, histories of operations of any length, orders of summation, targets", "why_tests_cant": "errors of arbitrarily many roundings add up over a history; only a bound for every length shows that a fit that rescales a spectrum thousands of times can be trusted", "anchors": ["echidna/core/spectra.py:Spectra.scale", "echidna/core/spectra.py:Spectra.fill", "echidna/core/spectra.py:Spectra.add", "echidna/core/spectra.py:Spectra.cut", "echidna/core/spectra.py:Spectra.rebin", "echidna/core/spectra.py:Spectra.sum"]}
{"id": "C78", "title": "The checks of parameter values report exactly what is wrong with them", "statement": "check_values warns that values lie outside the bounds of the parameter exactly when some do, with their number, and that the prior is not among the values exactly when no value is within a relative 5e-13 of it. In cautious mode the first of the warnings is raised instead, and a Fit can be built exactly when there is nothing to warn about the parameters of its spectra. An odd number of values placed symmetrically about the prior (in value, or on a logarithmic scale in ratio) and logscale_deviation are never warned about, an even number is; rates are outside their bounds exactly when they are negative. Two gaps: a prior of 0 is always reported missing, also when it is on the grid, so that in cautious mode no parameter with prior 0 can be fitted; and global parameters are not checked.", "quantifier": "all parameters, grids, bounds, priors, configurations of fits and floating backgrounds, both modes", "why_tests_cant": "the check divides by the prior, rounds and compares; whether it ever misses or invents a problem depends on all values of the grid", "anchors": ["echidna/core/parameter.py:FitParameter.check_values", "echidna/fit/fit.py:Fit.check_fit_config", "echidna/fit/fit.py:Fit.__init__", "echidna/utilities.py:start_logging"]}
{"id": "C79", "title": "What get_limit stores is what it answered from", "statement": "With store_limit, get_limit writes one file, and reading it back with load_limit_results gives, for every signal scaling, the statistic relative to the reference, the best fit and penalty term of every parameter and (with store_fits) the grids of the fit made in this call, whatever was calculated with the same Limit before; the returned limit is the first scaling from the minimum on whose stored full statistic exceeds the threshold. The file has the name asked for, with .hdf5 added unless it is there, else one made from the name of the results and the time. If a fit raises nothing is written or logged. Three gaps: if no limit is found the name asked for is ignored; store_spectra makes every call raise after the results were written; and the logged best fits, penalty terms and statistic belong to the answer only if the statistic is least at the first scaling.", "quantifier": "all results of fits, numbers of scalings and parameters, orders of the summaries, earlier calls with the same object, options and file names", "why_tests_cant": "a test compares one file with one call; which row of which earlier call ends up in the file, under which name, depends on all calls and on where the minimum and the crossing are", "anchors": ["echidna/limit/limit.py:Limit.get_limit", "echidna/fit/fit_results.py:LimitResults", "echidna/output/store.py:dump_limit_results", "echidna/output/store.py:load_limit_results"]}
{"id": "C80", "title": "Every message is logged exactly once", "statement": "From the first successful start_logging on, whatever is logged and however often and with whatever settings logging is started again, the log file named at the first start holds every message of level debug or higher once, in order, and no other file is touched; the terminal shows once those at or above the log_level of the settings at the first start, messages of the extra logger and loggers below it without their name. A UserWarning raises if and only if some start so far was made in cautious mode; else it goes to the log if the last start asked for it. Two processes on one machine have different log files. Known gaps: a message through the logging module itself before the first start, as the value grids of parameters log, means that no log file is ever made and nothing below warning is shown; and a start that failed over the log level fixes the file.", "quantifier": "all histories of starts, settings, loggers, levels and messages before and after the first start, all logger hierarchies", "why_tests_cant": "a test logs a few messages after one start; repeated, failed and reconfigured starts and messages before the start come in unboundedly many orders", "anchors": ["echidna/utilities.py:start_logging", "echidna/utilities.py:DispatchingFormatter", "echidna/settings.py:user_profile"]}
{"id": "C81", "title": "Errors of arrays are one factor or one number for every entry", "statement": "get_array_errors gives for every entry, in order, the linear error, or on a logarithmic scale the same relative error for all entries (e^err or 10^err as factor; empty bins stay empty), and raises ValueError if it has no error to apply. Hence the bounds of the plot-grab script multiply a spectrum of one dimension and its total by one power of ten, the signal by its inverse, and both together change nothing. Known gaps: the errors come back flat, so spectra of several dimensions raise or get too many bins; a fraction given alone is ignored; the bounds go in the direction opposite to the one documented.", "quantifier": "all arrays of non-negative contents, shapes, errors and scales", "why_tests_cant": "equality of factors over all entries of all arrays is a statement about real functions, tests compare a few floats with a tolerance", "anchors": ["echidna/utilities.py:get_array_errors", "echidna/scripts/klz_majoron_limits.py:main"]}
{"id": "C82", "title": "In floating point, lookups, fills, centres and edges of bins agree away from edges", "statement": "Computed in float64, a value at least (i+1)*2^-50 bin widths inside the edges of bin i of an axis is both looked up (get_bin) and filled into bin i; lookups of values between the bounds never fail, stay between 0 and the number of bins and never fall as the value grows. On axes whose bins are not too narrow for the size of the bounds, get_bin_centre(i) is within an eighth of a bin of the true centre and is looked up and filled into bin i, get_bin_centres has exactly one entry per bin, each looked up in its own bin, and get_bin_boundaries has one entry more than bins, starts and ends at the bounds and rises strictly. At an edge itself lookup and fill may differ (0.3 on ten bins of [0, 1)), the upper bound may be looked up in the last bin or one past it, and on axes that are too narrow centres may repeat or be missing.", "quantifier": "all finite bounds up to 2^1000, all numbers of bins up to 2^46, all float64 values", "why_tests_cant": "rounding errors depend on bounds, number of bins and value; tests try a few round numbers where nothing is rounded", "anchors": ["echidna/core/parameter.py:SpectraParameter.get_bin", "echidna/core/parameter.py:SpectraParameter.get_bin_centre", "echidna/core/parameter.py:SpectraParameter.get_bin_centres", "echidna/core/parameter.py:SpectraParameter.get_bin_boundaries", "echidna/core/spectra.py:Spectra.fill"]}
{"id": "C83", "title": "A configuration holds exactly what its file describes", "statement": "Reading a configuration written by hand succeeds exactly when every entry describes a parameter (axes: low, high and bins; fit parameters: also prior and sigma, and optionally the scale, base, dimension and earlier results), and gives parameters with those names, classes, values and defaults in the order of the file; spectral parameters follow the global ones. Otherwise the first wrong entry decides the exception: TypeError for unknown or missing keys and for null in the place of a number, ValueError for a text there, IndexError for a parameter that is no rate or no known systematic, KeyError for a missing or empty section, IOError for a missing file.", "quantifier": "all dictionaries read from files: any keys, any order, any values, any number of dimensions and parameters", "why_tests_cant": "the space of hand-written files is unbounded; tests read the example files", "anchors": ["echidna/core/config.py:SpectraConfig.load", "echidna/core/config.py:SpectraFitConfig.load", "echidna/core/config.py:GlobalFitConfig.load", "echidna/core/parameter.py:FitParameter", "echidna/core/parameter.py:SpectraParameter"]}
{"id": "C84", "title": "The methods of a fit take spectra into the region or refuse them", "statement": "With shrink, set_data, set_fixed_background, set_signal and set_floating_backgrounds restrict each spectrum to the region of interest and hold it with its axes of the region; no other attribute of the fit and no spectrum with another configuration changes; a spectrum without an axis of the region is refused with IndexError. Without shrink, data and fixed background are taken as they are if their bounds are those of the region within the tolerance, and refused otherwise. append_fixed_background adds each further spectrum, restricted and scaled to its number of decays, to the fixed background. set_roi replaces the region or keeps the old one. A fit without floating backgrounds gives the test statistic of the data and of the fixed background plus the signal, bin by bin or in one bin. Known gaps: when set_floating_backgrounds raises, the backgrounds before are restricted already; append_fixed_background without a fixed background raises AttributeError after cutting the axes of the first spectrum.", "quantifier": "all regions, spectra of any number of dimensions, numbers of decays, lists of backgrounds, and all states of a fit", "why_tests_cant": "effects on shared spectra and on every other attribute must hold for every combination of spectra; tests set one spectrum of one dimension", "anchors": ["echidna/fit/fit.py:Fit.set_data", "echidna/fit/fit.py:Fit.set_fixed_background", "echidna/fit/fit.py:Fit.set_signal", "echidna/fit/fit.py:Fit.set_floating_backgrounds", "echidna/fit/fit.py:Fit.append_fixed_background", "echidna/fit/fit.py:Fit.set_roi", "echidna/fit/fit.py:Fit.fit"]}
{"id": "C85", "title": "set_par of an axis sets what it is given and nothing else", "statement": "set_par of an axis with numbers for some of low, high and bins sets those (the number of bins cut off behind the point) and leaves the others, whatever the order in which the keywords are walked through; passing the dictionary that to_dict gives makes the axis equal to the one it came from, and the bin width follows. An unknown keyword raises TypeError, a value that is no number TypeError or ValueError. The unit is MeV for energy and mm for radial. Known gaps: a call that raises may have set other keywords already, depending on the order of the walk; get_unit gives None for other names instead of the documented exception.", "quantifier": "all axes, all sets of keywords with any values in any order, all names", "why_tests_cant": "the order in which keywords are walked through is not fixed by the language; a test sees one order", "anchors": ["echidna/core/parameter.py:SpectraParameter.set_par", "echidna/core/parameter.py:SpectraParameter.get_unit", "echidna/core/parameter.py:Parameter.to_dict"]}
{"id": "C86", "title": "get_statistics gives the best fits of all scalings, whatever was asked before", "statement": "get_statistics of a Limit returns, for each scaling of the signal in order, what the fit finds with the signal at that scaling (none at zero) and the spectra the fit was given, whatever was evaluated, scaled or asked from the Limit before. With floating backgrounds each entry is a row of statistic and penalty of the best grid point; without, it is the statistic of the data and of the fixed background plus the signal. The exception of the first fit that raises comes out. Read by get_array_limit, the rows give the first scaling whose statistic and penalty together exceed the threshold. Known gaps: with floating backgrounds the array is two-dimensional although one statistic per scaling is documented, and no minimum is subtracted, unlike in get_limit; with two or more global parameters only the last one is applied to the signal.", "quantifier": "all fits with a prepared signal, all lists of scalings, all earlier histories of evaluations, limits and statistics", "why_tests_cant": "the signal spectrum is rescaled in place again and again and shares stored convolutions with earlier fits; a test checks one call on a fresh fit", "anchors": ["echidna/limit/limit.py:Limit.get_statistics", "echidna/limit/limit.py:Limit.get_array_limit", "echidna/fit/fit.py:Fit.fit", "echidna/fit/fit.py:Fit.remove_signal"]}
{"id": "C87", "title": "Values set in a grid search are the ones read back", "statement": "set_stat and set_penalty_term write a value to the grid points that their indices select, repeated over the bins as numpy does, and change no other point, no parameter and not the other array; set_stats and set_penalty_terms replace an array by one of the same shape. Indices outside the grid raise IndexError, values and arrays of a wrong shape ValueError, and nothing changes. get_raw_stat, get_penalty_term and get_stat give the part of the arrays selected by the indices, get_stat with the statistic summed over the bins and the penalty added. After any history of writes each point holds the last accepted value written to it, or 0.", "quantifier": "all grid searches with any number of parameters and bins, per bin or not, all indices from 0, all values and arrays, all histories of writes", "why_tests_cant": "broadcasting rules and partial indices give unboundedly many combinations, and histories of writes are unbounded; a test writes and reads a few points", "anchors": ["echidna/fit/minimise.py:GridSearch.set_stat", "echidna/fit/minimise.py:GridSearch.set_penalty_term", "echidna/fit/minimise.py:GridSearch.set_stats", "echidna/fit/minimise.py:GridSearch.set_penalty_terms", "echidna/fit/minimise.py:GridSearch.get_stat", "echidna/fit/minimise.py:GridSearch.get_raw_stat", "echidna/fit/minimise.py:GridSearch.get_penalty_term"]}
{"id": "C88", "title": "Projections of a grid search's statistics keep the named parameters", "statement": "nd_project_stats and nd_project_stat return the statistics (of the whole grid, or at a grid point) summed over every fit and spectral parameter that is not named, one axis for each that is, and raise IndexError for a name that is neither. (At this commit no projection is returned at all: the module uses itertools without importing it. With the name bound, nd_project_stats is right only if every spectral parameter is named, and nd_project_stat only if all are.)", "quantifier": "all grid searches, all numbers and sizes of fit and spectral parameters, all lists of names and indices, with and without the missing import", "why_tests_cant": "which axis is summed depends on how many were summed before, so each combination of named and unnamed parameters behaves differently; no test calls either method", "anchors": ["echidna/fit/minimise.py:GridSearch.nd_project_stat", "echidna/fit/minimise.py:GridSearch.nd_project_stats", "echidna/fit/minimise.py:GridSearch.get_raw_stats", "echidna/fit/minimise.py:GridSearch.get_raw_stat"]}
{"id": "C89", "title": "In floating point, a shrink keeps the bins that were asked for", "statement": "In binary64, shrinking an axis to bounds that lie in bins i (lower) and j-1 (upper), or within 1/200 of a bin outside them because of rounding, keeps exactly the bins i to j-1, and the new bounds are the edges of those bins up to 1/500 of a bin. In particular two values of get_bin_boundaries cut out exactly the bins between them, and a shrink to the axis's own bounds keeps every bin. (True of axes whose lower bound is a multiple of the bin width; on others the code loses requested bins and moves the bounds to multiples of the width.)", "quantifier": "all binary64 bounds and numbers of bins with |low|, |high| up to 2^36 bin widths, all requested bounds not within the last 1/50 of a bin before the next edge", "why_tests_cant": "whether (x - low)/width truncates to the right integer depends on the last bit of each rounding; 0.3 on ten bins from 0 to 1 already comes out as 2.9999999999999996", "anchors": ["echidna/core/spectra.py:Spectra.shrink", "echidna/core/parameter.py:SpectraParameter.round", "echidna/core/parameter.py:SpectraParameter.get_width", "echidna/core/parameter.py:SpectraParameter.get_bin_boundaries"]}
{"id": "C90", "title": "Pictures of chi squareds show the numbers they are given", "statement": "The graphs over signal counts, inverse half-life and effective mass have one point for each count, with the converted count and its chi squared; the colour maps over counts and values of a systematic show at each pair the mean chi squared over the fits (turn_on: minus the chi squared without systematic; push_pull: twice the penalty minus it), with preferred values and minima drawn over; the histogram of chi squareds per bin holds number i in bin i + 1. (The maps leave out the last count and the last value; the units half-life and mass never work with matplotlib; saving the penalties and the spectral plot made with ROOT always raise.)", "quantifier": "all numbers of counts, values and fits, all chi squareds, penalties, converters and isotopes", "why_tests_cant": "a transposed or shifted picture looks plausible, and sizes and numbers are unbounded; the repository has no test of these functions", "anchors": ["echidna/output/plot_chi_squared.py:chi_squared_vs_signal", "echidna/output/plot_chi_squared.py:chi_squared_map", "echidna/output/plot_chi_squared.py:turn_on", "echidna/output/plot_chi_squared.py:push_pull", "echidna/output/plot_chi_squared.py:penalty_vs_systematic", "echidna/output/plot_chi_squared_root.py:chi_squared_vs_half_life", "echidna/output/plot_chi_squared_root.py:chi_squared_vs_mass", "echidna/output/plot_root.py:plot_chi_squared_per_bin", "echidna/output/plot_root.py:spectral_plot"]}
{"id": "C91", "title": "An interrupted save is never mistaken for a complete one", "statement": "Saving a spectrum, fit results or limit results to a file is a sequence of writes. If it is stopped between any two of them (KeyboardInterrupt, a full disk, an exception), loading the file afterwards gives what the file held before or raises an error; it never gives part of what was being written. When the save was appending, the other objects of the file are unchanged. The same save made again then succeeds and leaves the file as if it had not been interrupted.", "quantifier": "every file, every spectrum, fit results and limit results, every mode (append, overwrite), every number of writes after which the save is stopped, and every history of stopped saves of any kinds", "why_tests_cant": "the crash point is arbitrary and a test of store.py runs to the end of the save; what matters is the order of the writes relative to what the loader reads", "anchors": ["echidna/output/store.py:dump", "echidna/output/store.py:dump_ndarray", "echidna/output/store.py:dump_fit_results", "echidna/output/store.py:dump_limit_results", "echidna/output/store.py:load", "echidna/output/store.py:load_fit_results", "echidna/output/store.py:load_limit_results", "echidna/output/store.py:load_ndarray"]}
{"id": "C92", "title": "Smearing weights follow the Gaussian or Poisson distribution of the resolution that was set", "statement": "The weights that weighted_smear gives to the energies of a window are values of a Gaussian with the width of get_sigma, symmetric, falling with the distance, and with integral one (a window of k sigma holds all but 2 exp(-k^2/2) of it), or, with Poisson statistics, the Poisson probabilities of the numbers of photons: they sum to one, their mean is the energy being smeared and their variance is the square of get_sigma. They are positive and depend on the settings of the object only, not on what it was used for before (it remembers logarithms of factorials).", "quantifier": "all energies, means, light yields and resolutions, all windows, and all histories of set_resolution, calc_poisson_energy and smearing on one object", "why_tests_cant": "integrals and infinite sums, real numbers, and a memo table whose correctness depends on the history of the object", "anchors": ["echidna/core/smear.py:Smear.calc_gaussian", "echidna/core/smear.py:EnergySmearLY.calc_poisson_energy", "echidna/core/smear.py:EnergySmearRes.calc_poisson_energy", "echidna/core/smear.py:EnergySmearLY.weighted_smear", "echidna/core/smear.py:EnergySmearRes.weighted_smear", "echidna/core/smear.py:EnergySmearRes.set_resolution"]}
{"id": "C93", "title": "A fit that is not ready is refused before it is run, and refusing changes nothing", "statement": "fit() on a fit without data or background, with data, fixed background or signal off the region of interest, with floating backgrounds that fail their checks or have no parameters, with parameters of spectra but no floating background, without minimiser, or with a minimiser or statistic that does not keep bins although the fit does, raises the exception for that and leaves the fit and all spectra as they were; a fit that is ready is run. set_minimiser is refused in the same way unless the spectra are ready, and makes the minimiser that the fit needs. The full claim, that this holds of every call of fit(), fails: the check is made before the first run only, and it does not look at the bounds of floating backgrounds.", "quantifier": "all fits, spectra, regions, parameters, minimisers and flags", "why_tests_cant": "the ways in which a fit can be incomplete combine freely with all spectra; tests try single omissions", "anchors": ["echidna/fit/fit.py:Fit.check_fitter", "echidna/fit/fit.py:Fit.check_all_spectra", "echidna/fit/fit.py:Fit.check_spectra", "echidna/fit/fit.py:Fit.check_fit_config", "echidna/fit/fit.py:Fit.set_minimiser", "echidna/fit/fit.py:Fit.fit"]}
{"id": "C94", "title": "Files of the old format load as the spectrum that was written", "statement": "load() of a file without a group spectrum, whose own attributes hold name, numbers of decays and events, bipo (0 if missing), style, rois (empty) and for each axis pars:axis:low, high and bins, gives the spectrum with these, the data of the file, the default name of the configuration and no fit configuration, whatever the order of the attributes. The axes come in their order, so that they match the dimensions of the data. A missing file and a file of neither format raise.", "quantifier": "all names, axes, numbers, data, styles that dict_to_string can write, and all orders of the attributes of the file", "why_tests_cant": "the attributes come in an order that the file library chooses, and axes and their names are unbounded; tests only load files of the new format", "anchors": ["echidna/output/store.py:load", "echidna/output/store.py:_load_old", "echidna/output/store.py:string_to_dict"]}
{"id": "C95", "title": "What is loaded from a file matches its own configuration, whatever the file holds", "statement": "Fit results loaded from a file have statistics and penalty terms with one place for each point of the grid of their configuration (and each bin of the spectrum, if per bin), the arrays and name of the file, or loading raises; likewise limit results match the number of scalings of their configuration, and spectra their axes. A missing file raises IOError, a file without the group KeyError.", "quantifier": "all files with any groups, attributes and arrays, not only those that were written by the package", "why_tests_cant": "files may be edited, damaged or written by other versions: the contents of a file are arbitrary, and a result of wrong size gives wrong limits without an error", "anchors": ["echidna/output/store.py:load_fit_results", "echidna/output/store.py:load_limit_results", "echidna/output/store.py:load", "echidna/output/store.py:load_ndarray", "echidna/fit/minimise.py:GridSearch.set_stats", "echidna/fit/minimise.py:GridSearch.set_penalty_terms"]}
{"id": "C96", "title": "A statistic adds over bins in any order, never grows when bins are merged, and never falls when the model moves away from the data", "statement": "compute_statistic (not per bin) of each of the six statistics gives the same number for the bins in any other order, the sum of its numbers for two parts of the data, no larger number after merging bins in groups of any sizes, and no larger number for a model whose expected content lies between the observed and the earlier expected content in every bin. For the last two all expected contents are at least 1e-34 and observed contents that or zero (not zero for Neyman).", "quantifier": "all statistics, all numbers of bins, all real contents, all permutations, splittings and groupings", "why_tests_cant": "inequalities between real functions (log sum inequality) for all real contents and all groupings; the comparison of fits and the choice of binning rest on them", "anchors": ["echidna/fit/test_statistic.py:TestStatistic.compute_statistic", "echidna/fit/test_statistic.py:BakerCousinsChi", "echidna/fit/test_statistic.py:BakerCousinsLL", "echidna/fit/test_statistic.py:Neyman", "echidna/fit/test_statistic.py:Pearson", "echidna/fit/test_statistic.py:ExtendedLL"]}
{"id": "C97", "title": "Transforming a sum of spectra gives the sum of the transformed spectra", "statement": "For two spectra with the same axes, rebin, shrink, weighted smearing and shifting by whole bins of the spectrum left by add give the same contents, decays and description as adding the two rebinned, shrunk, smeared or shifted spectra; project and nd_project of the sum are the sums of the projections. rebin and shrink are refused for the sum exactly when they are for either part.", "quantifier": "all pairs of spectra with the same axes, all contents, new bins, bounds, smearing windows and weights, shifts and dimensions", "why_tests_cant": "analyses add backgrounds before or after transforming them and must not depend on which; this has to hold for all contents, including those that cancel", "anchors": ["echidna/core/spectra.py:Spectra.add", "echidna/core/spectra.py:Spectra.rebin", "echidna/core/spectra.py:Spectra.shrink", "echidna/core/spectra.py:Spectra.project", "echidna/core/spectra.py:Spectra.nd_project", "echidna/core/smear.py:EnergySmearLY.weighted_smear", "echidna/core/shift.py:Shift.shift_by_bin", "echidna/core/scale.py:Scale.scale"]}
{"id": "C98", "title": "Shrinking in steps is shrinking at once", "statement": "Shrinking a spectrum with one set of bounds and then with a second set that is allowed for the result leaves the same contents, axes and description as shrinking it once with the later of the lower and the earlier of the upper bounds on every axis; so the order of the steps does not matter.", "quantifier": "all spectra, dimensions, pairs of sets of bounds on any of the axes, at bin edges or inside bins", "why_tests_cant": "the bounds are converted to bins, rounded and stored by every step: that the errors do not pile up must hold for all bounds and all axes", "anchors": ["echidna/core/spectra.py:Spectra.shrink", "echidna/core/spectra.py:Spectra.cut", "echidna/core/spectra.py:Spectra.shrink_to_roi"]}
{"id": "C99", "title": "A projection is not affected by what was done to the other dimensions", "statement": "Projecting a rebinned spectrum onto a dimension gives the projection of the original spectrum with its neighbouring entries merged as that dimension's bins were, whatever the new bins of the other dimensions; smearing one dimension, where it loses nothing, leaves the projections onto the other dimensions as they were.", "quantifier": "all spectra, all new bins that divide the old ones, all dimensions projected onto or smeared, all smearing widths and weights", "why_tests_cant": "fits project a many-dimensional spectrum after transforming it and compare it with a directly made one-dimensional one; this has to hold for all contents and all binnings", "anchors": ["echidna/core/spectra.py:Spectra.rebin", "echidna/core/spectra.py:Spectra.project", "echidna/core/smear.py:EnergySmearLY.weighted_smear"]}
{"id": "C100", "title": "The fiducial cut looks at the position it was told to look at", "statement": "An extractor made with reco_pos or mc_pos accepts exactly the entries that carry what it reads and whose position of the requested kind is inside the fiducial radius: the true position for true quantities and the reconstructed one for reconstructed quantities by default, the other one on request, and always the reconstructed one for external events. Combinations that make no sense are refused when the extractor is made.", "quantifier": "all kinds of extractors, radii, flags, ntuple and ROOT entries and positions, including positions at the radius", "why_tests_cant": "the same cut is written out for nine classes and two file formats; that none of them looks at the wrong position must hold for all entries and flags", "anchors": ["echidna/core/dsextract.py:EnergyExtractMC", "echidna/core/dsextract.py:EnergyExtractReco", "echidna/core/dsextract.py:EnergyExtractTruth", "echidna/core/dsextract.py:RadialExtractMC", "echidna/core/dsextract.py:RadialExtractReco", "echidna/core/dsextract.py:Radial3ExtractMC", "echidna/core/dsextract.py:Radial3ExtractReco"]}
{"id": "C101", "title": "Shifts by whole bins along different axes do not influence each other", "statement": "For spectra without negative contents, shifting by whole bins along one axis and then along another gives the same contents and description in either order, and the projection onto a shifted dimension is the projection of the original spectrum moved by as many bins, with zeros for the bins that are moved in.", "quantifier": "all spectra without negative contents, pairs of axes, numbers of bins up or down, including shifts beyond the end of the axis", "why_tests_cant": "fits convolve spectra with several shifts in the order of a dictionary, which must not matter for any contents and any shifts", "anchors": ["echidna/core/shift.py:Shift.shift", "echidna/core/shift.py:Shift.shift_by_bin", "echidna/core/spectra.py:Spectra.project"]}
