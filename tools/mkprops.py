import json
P=[]
def p(title, statement, quantifier, why, *anchors):
    P.append(dict(id="C%02d"%(len(P)+1), title=title, statement=statement, quantifier=quantifier, why_tests_cant=why, anchors=list(anchors)))

SP="echidna/core/spectra.py:"; PA="echidna/core/parameter.py:"; CF="echidna/core/config.py:"
p("Bin lookup partitions the axis",
  "For an axis [low, high) with n >= 1 bins, SpectraParameter.get_bin(x) returns, for every x with low <= x < high, the unique index i in 0..n-1 with low + i*w <= x < low + (i+1)*w where w = (high-low)/n, and raises ValueError for every x < low or x > high.",
  "all axes with low < high and n >= 1, all values x",
  "the value range and the axis bounds are continuous; a test can only sample values, and off-by-one errors live exactly on bin edges",
  PA+"SpectraParameter.get_bin", PA+"Parameter.get_width")
p("Bin centres, bin edges and bin lookup agree",
  "For every axis and every valid bin index i: get_bin(get_bin_centre(i)) = i; get_bin_centre raises ValueError exactly for i < 0 or i >= n; get_bin_boundaries() returns n+1 strictly increasing edges starting at low and ending at high; get_bin_centres() returns exactly n values, the i-th being get_bin_centre(i).",
  "all axes, all bin indices",
  "must hold for every number of bins and every width, not only for the widths used in tests",
  PA+"SpectraParameter.get_bin_centre", PA+"SpectraParameter.get_bin_centres", PA+"SpectraParameter.get_bin_boundaries")
p("A fill changes exactly one bin, by exactly the weight",
  "A successful Spectra.fill(weight, values) adds weight to the single bin whose edges contain all the values and leaves every other bin, the configuration, num_decays and raw_events unchanged; it succeeds for every complete set of in-range values.",
  "all well-formed spectra of any dimension, all value assignments, all weights",
  "the untouched bins are unboundedly many and the claim ranges over all dimensions and binnings",
  SP+"Spectra.fill")
p("An invalid fill is rejected without effect",
  "fill raises Exception if a keyword is not a parameter of the spectrum or a parameter is missing, ValueError if a value is outside [low, high), and in every such case the spectrum is unchanged.",
  "all spectra and all keyword dictionaries",
  "every combination of missing, unknown and out-of-range arguments must be covered",
  SP+"Spectra.fill")
p("A history of fills is a histogram",
  "After any sequence of fill calls on an empty spectrum the content of every bin is the sum of the weights of the accepted fills whose values fall in that bin, sum() is the sum of all accepted weights, and the result does not depend on the order of the calls.",
  "all finite sequences of fill calls (accepted and rejected), all permutations of them",
  "histories are unbounded",
  SP+"Spectra.fill", SP+"Spectra.sum")
p("project returns the marginal distribution",
  "project(d) returns an array with one entry per bin of d, entry i being the sum of all bins whose index on axis d is i; consequently its total equals sum().",
  "all spectra of any number of dimensions and any dimension name d in the configuration",
  "the number of dimensions and bins is unbounded; tests use two or three dimensions",
  SP+"Spectra.project")
p("nd_project returns the joint marginal of the requested dimensions",
  "nd_project(ds) returns the array, indexed by the requested dimensions, whose entries are the sums over all the other dimensions.",
  "all spectra with any number of dimensions, all lists of distinct dimension names",
  "depends on which axes are dropped and in which order; the number of combinations is unbounded",
  SP+"Spectra.nd_project")
p("surface returns the two-dimensional marginal",
  "surface(d1, d2) returns the 2-d array obtained by summing over every dimension other than d1 and d2.",
  "all spectra with at least two dimensions, all pairs of distinct dimensions",
  "the defect, if any, appears only for particular numbers of dimensions",
  SP+"Spectra.surface")
p("Rebinning merges neighbouring bins and conserves content",
  "If every new bin count divides the old one, rebin(new_bins) succeeds, each new bin holds the sum of the consecutive old bins it covers, low and high are unchanged and sum() is unchanged.",
  "all spectra of any rank, all valid new binnings",
  "ranges over all shapes and all divisors",
  SP+"Spectra.rebin")
p("Rebinning composes",
  "rebin(a) followed by rebin(b) gives the same data and configuration as rebin(b) directly; rebin to the current binning is the identity.",
  "all spectra, all chains of divisors",
  "an algebraic law over all inputs",
  SP+"Spectra.rebin")
p("A rejected rebin leaves the spectrum as it was",
  "If rebin raises, the spectrum (data and binning) is the one before the call, so the data shape still matches the configuration.",
  "all spectra, all invalid new binnings",
  "which parameter is the first invalid one depends on the inputs; tests look only at the exception",
  SP+"Spectra.rebin")
p("shrink keeps exactly the bins that overlap the requested range",
  "For an accepted shrink the new spectrum contains, bin for bin with unchanged content, exactly the old bins that overlap [low, high) of every shrunk dimension, the new bounds are the outer edges of the kept bins, and the bin width is unchanged.",
  "all spectra, all keyword dictionaries with bounds inside the existing ones and low < high",
  "bin edges are continuous quantities and the correction branches depend on fractional positions",
  SP+"Spectra.shrink", PA+"SpectraParameter.round")
p("shrink without arguments is the identity",
  "shrink() with no keyword, or with the current bounds, changes neither data nor configuration.",
  "all spectra",
  "must hold for all axes, including those whose lower bound is not a multiple of the bin width",
  SP+"Spectra.shrink", PA+"SpectraParameter.round")
p("A rejected shrink has no effect",
  "shrink raises IndexError for an unknown parameter or suffix, ValueError for a bound outside the current range, and in each case leaves the spectrum unchanged.",
  "all spectra, all keyword dictionaries",
  "all combinations of valid and invalid keywords, in any iteration order",
  SP+"Spectra.shrink")
p("cut keeps the content-per-decay ratio",
  "After a successful cut, num_decays has been multiplied by sum_after/sum_before; hence sum/num_decays is the same before and after, and scaling the cut spectrum to n gives sum = n * (sum/num_decays).",
  "all spectra with non-zero sum, all accepted cuts",
  "a ratio law over all inputs",
  SP+"Spectra.cut", SP+"Spectra.shrink", SP+"Spectra.scale")
p("shrink_to_roi records the true efficiency",
  "After shrink_to_roi(low, high, d) the stored ROI has the bounds of the shrunk axis and efficiency = sum_after/sum_before, which lies in [0, 1] for non-negative spectra.",
  "all spectra with positive sum",
  "ranges over all data",
  SP+"Spectra.shrink_to_roi", SP+"Spectra.get_roi")
p("Scaling is a group action of the number of decays",
  "scale(n) multiplies every bin by n/num_decays and sets num_decays to n; scale(a) then scale(b) equals scale(b) for a != 0; scale(n) then scale(old num_decays) restores the spectrum; it fails when num_decays is zero.",
  "all spectra with non-zero num_decays and all targets",
  "algebraic law over all values",
  SP+"Spectra.scale")
p("add is the bin-wise sum and is rejected atomically",
  "An accepted add(other) adds the contents bin by bin, adds num_decays and raw_events, keeps the configuration, so sum() is additive; other is unchanged; a rejected add leaves the spectrum unchanged; adding in either order gives the same data, num_decays and raw_events.",
  "all pairs of spectra",
  "ranges over all pairs of configurations",
  SP+"Spectra.add")
p("add only combines bins that represent the same region",
  "If add accepts, then each bin of the other spectrum that is added to a bin of this one covers the same interval (up to the documented tolerance) of every parameter of this spectrum, including its position in the array.",
  "all pairs of spectra, including those listing the same parameters in another order",
  "the defect depends on the order in which parameters were declared",
  SP+"Spectra.add", CF+"SpectraConfig.get_dims", CF+"SpectraConfig.get_dim", CF+"SpectraConfig.get_dim_type")
p("Data shape always matches the configuration",
  "For a spectrum with its own configuration, after any sequence of fill, scale, add, shrink, cut, rebin and shrink_to_roi calls (each accepted) the data array has exactly the shape given by the configuration's bin counts, and contents stay non-negative if all weights and scalings are.",
  "all operation histories",
  "unbounded histories",
  SP+"Spectra", CF+"Config.get_shape")
p("Spectra are independent of each other",
  "An operation on one spectrum does not change the observable state (data, axis bounds, binning, consistency) of any other spectrum.",
  "all heaps of spectra and all interleavings of operations on them",
  "aliasing through a shared configuration object depends on how the spectra were created or copied",
  SP+"Spectra.__init__", SP+"Spectra.shrink", SP+"Spectra.rebin", "echidna/fit/fit.py:Fit.make_fixed_background")
p("Weighted smearing never creates and, inside the axis, never loses events",
  "weighted_smear moves the content of every bin to bins within num_sigma standard deviations on the same line of the smeared axis: the total never increases for non-negative spectra, contents stay non-negative, and the total of every bin whose window contains a bin centre is conserved exactly.",
  "all spectra (1-3 dimensions), all resolutions, all num_sigma, all positive weight functions",
  "depends on window edges relative to the bin edges, for every axis and resolution",
  "echidna/core/smear.py:EnergySmearLY.weighted_smear", "echidna/core/smear.py:EnergySmearRes.weighted_smear", "echidna/core/smear.py:RadialSmear.weighted_smear")
p("Random smearing never creates events",
  "random_smear yields a spectrum whose total is at most the number of entries drawn, whatever values the random generator returns, and every drawn value that is in range is counted in the bin that contains it.",
  "all spectra and all outcomes of the random generator",
  "the generator's outcomes are unbounded; a test sees one draw",
  "echidna/core/smear.py:EnergySmearLY.random_smear", "echidna/core/smear.py:RadialSmear.random_smear")
p("Re-smearing arithmetic composes resolutions",
  "Smearing a spectrum of resolution cur with the resolution returned by calc_smear_resoluton(new, cur) gives variance equal to that of resolution new at every energy, and likewise calc_smear_ly for light yields; both raise ValueError when the new resolution is better than the current one.",
  "all positive resolutions and light yields",
  "continuous parameters",
  "echidna/core/smear.py:EnergySmearLY.calc_smear_ly", "echidna/core/smear.py:EnergySmearRes.calc_smear_resoluton")
p("Shifting by whole bins translates the histogram",
  "shift by an integral number k of bin widths moves the content of every bin i to bin i+k, drops what leaves the axis, fills with zero what enters, and keeps num_decays; a zero shift is the identity and a shift by a then by b drops no more than is outside the axis.",
  "all spectra with non-negative content, all integers k of either sign",
  "edge handling for every k and every number of bins",
  "echidna/core/shift.py:Shift.shift", "echidna/core/shift.py:Shift.shift_by_bin")
p("Interpolated shift and scale preserve normalisation",
  "An interpolated shift, and any scale of an axis, gives a spectrum with the same total and the same num_decays as before, whatever the interpolation returns, provided the transformed spectrum is not empty.",
  "all spectra, all shifts and scale factors, all interpolation functions",
  "the spline output cannot be enumerated",
  "echidna/core/shift.py:Shift.shift", "echidna/core/scale.py:Scale.scale")
p("Ntuple filling counts every usable entry exactly once",
  "fill_from_ntuple returns a spectrum with num_decays equal to the number of entries (or the given value), raw_events equal to the number of entries that are valid, in range and accepted, and sum() equal to raw_events.",
  "all ntuples (any number of entries), all configurations",
  "ranges over all event streams",
  "echidna/core/fill_spectrum.py:fill_from_ntuple", "echidna/core/dsextract.py:function_factory")
p("The BiPo cut keeps exactly the single-trigger decays",
  "With the bipo cut, an entry is counted if and only if it is the first trigger of its decay, is valid and in range, and is not followed by a retrigger of the same decay.",
  "all event streams",
  "depends on the position in the stream, in particular on its last entry",
  "echidna/core/fill_spectrum.py:_bipo_ntuple")
p("The fiducial cut removes exactly the events outside the radius",
  "With a fiducial radius, an extractor declares valid exactly the reconstructed/MC-tagged events whose (selected) position is at distance < radius; every dimension name accepted by the documentation gives an extractor, and radial3 is monotone in the radius and in [0,1] inside the outer radius.",
  "all events, all radii, all dimension names",
  "continuous positions; unusual settings such as zero radius",
  "echidna/core/dsextract.py:function_factory", "echidna/core/dsextract.py:EnergyExtractMC.get_valid_ntuple", "echidna/core/dsextract.py:EnergyExtractReco.get_valid_ntuple")
p("The Baker-Cousins statistics measure disagreement",
  "For non-negative observed and expected spectra BakerCousinsChi and BakerCousinsLL are >= 0, are zero if expected equals observed (all positive), and are zero only if they are equal in every bin.",
  "all pairs of arrays of any length",
  "an inequality over all real vectors",
  "echidna/fit/test_statistic.py:BakerCousinsChi", "echidna/fit/test_statistic.py:BakerCousinsLL")
p("Chi is twice the log likelihood",
  "For all positive expected values BakerCousinsChi(o, e) = 2 * BakerCousinsLL(o, e), and differences of BakerCousinsLL and ExtendedLL between two hypotheses on the same data agree.",
  "all pairs of arrays",
  "identity over all vectors",
  "echidna/fit/test_statistic.py:BakerCousinsChi", "echidna/fit/test_statistic.py:BakerCousinsLL", "echidna/fit/test_statistic.py:ExtendedLL")
p("The total statistic is the sum of the per-bin statistics",
  "For every test statistic the total value returned in total mode equals the sum of the array returned in per-bin mode on the same inputs.",
  "all statistics classes, all pairs of arrays",
  "the two modes are separate code paths that must agree for all data, including zeros",
  "echidna/fit/test_statistic.py:TestStatistic.compute_statistic")
p("Malformed inputs to a statistic are rejected",
  "compute_statistic raises TypeError when an argument is not one-dimensional and ValueError when lengths differ, and returns a value otherwise.",
  "all shapes",
  "ranges over all shapes",
  "echidna/fit/test_statistic.py:TestStatistic.compute_statistic")
p("Computing a statistic does not alter the data",
  "compute_statistic leaves both input arrays unchanged, so evaluating it twice gives the same answer.",
  "all statistics classes, all pairs of arrays",
  "in-place modification appears only for arrays with zero bins",
  "echidna/fit/test_statistic.py:Neyman", "echidna/fit/test_statistic.py:Pearson", "echidna/fit/test_statistic.py:BakerCousinsLL")
p("Penalty terms are quadratic in the pull",
  "The penalty of a parameter is ((value-prior)/sigma)^2 for chi-squared type statistics and half of it for likelihoods: non-negative, zero exactly at the prior, symmetric about it and strictly increasing with the distance from the prior.",
  "all values, priors and non-zero sigmas",
  "continuous parameters",
  "echidna/fit/test_statistic.py:TestStatistic.get_penalty_term")
p("Parameter grids cover the documented range",
  "get_values() of a linear parameter has exactly bins values, equally spaced and strictly increasing from low to high inclusive; for logscale they are equally spaced in the logarithm from low to high inclusive; logscale_deviation contains the prior and lies between low and high.",
  "all parameters with low < high and any number of bins",
  "ranges over all bounds and bin numbers, including the degenerate ones",
  PA+"FitParameter.get_values")
p("Value lookup inverts the grid",
  "get_value_index(get_value_at(i)) = i for every grid with distinct values; it raises for a value that is not in the grid.",
  "all parameters, all indices",
  "ranges over all grids",
  PA+"FitParameter.get_value_index", PA+"FitParameter.get_value_at")
p("Applying a rate is idempotent and forgets earlier rates",
  "Applying a rate parameter with value r leaves a spectrum with num_decays r; applying a sequence of non-zero rates is the same as applying only the last.",
  "all spectra, all sequences of rate values",
  "histories of grid steps are unbounded",
  PA+"RateParameter.apply_to", SP+"Spectra.scale")
p("Pre-convolved file names identify the systematic values",
  "get_pre_convolved yields the same directory and file name when applied twice with the same value, replaces only the token of its own systematic, and gives different file names for different values.",
  "all directories, file names and values",
  "string manipulation over all names",
  PA+"ResolutionParameter.get_pre_convolved", PA+"ScaleParameter.get_pre_convolved", PA+"ShiftParameter.get_pre_convolved")
p("find_minimum returns the first global minimum",
  "find_minimum on a grid of statistic values returns the smallest value of the grid and the index of its first occurrence in row-major order, i.e. it agrees with nanmin/argmin.",
  "all grids of any rank and shape",
  "a search with early exits over grids of unbounded size",
  "echidna/fit/minimise.py:GridSearch.find_minimum", "echidna/fit/minimise.py:GridSearch._update_coords")
p("The grid search visits every grid point exactly once",
  "minimise calls the objective exactly once for every combination of parameter values, in row-major order, with those values as arguments, and stores each result at its own grid position.",
  "all lists of parameters with any number of values",
  "the recursion depth is the number of parameters, which is unbounded",
  "echidna/fit/minimise.py:GridSearch._get_fit_par_values", "echidna/fit/minimise.py:GridSearch._get_values", "echidna/fit/minimise.py:GridSearch.minimise")
p("The grid search returns a global minimiser",
  "minimise returns the smallest value of statistic plus penalties over the whole grid, and the best fit values it records are a grid point at which the objective has that value.",
  "all objectives, all parameter grids",
  "global optimality quantifies over every grid point and every objective function",
  "echidna/fit/minimise.py:GridSearch.minimise", "echidna/fit/fit_results.py:FitResults")
p("Stored fit results can be read back at every grid point",
  "After a grid search, for every grid point the stored statistic, penalty and parameter value are those computed at that point.",
  "all grids and objectives with distinct parameter values",
  "one must check every cell of arbitrary grids",
  "echidna/fit/minimise.py:GridSearch.get_stat", "echidna/fit/fit_results.py:FitResults")
p("The array limit is the first crossing",
  "get_array_limit(array, limit) returns the signal scaling at the first entry of the array that exceeds the limit, raises LimitError exactly when none does, and CompatibilityError when the lengths differ; for a non-decreasing statistic every earlier scaling is allowed and every later one is excluded.",
  "all arrays, all limits",
  "ranges over all arrays",
  "echidna/limit/limit.py:Limit.get_array_limit")
p("The limit is the first scaling after the minimum that is excluded",
  "get_limit returns the first signal scaling at or after the one with the smallest statistic whose statistic, penalty terms included, exceeds that of the fit without signal (or the min_stat given) by more than the requested threshold, and raises LimitError when no scaling does; a larger threshold never gives a smaller limit; an exception of a fit is passed on.",
  "all statistics curves, all thresholds",
  "ranges over all curves",
  "echidna/limit/limit.py:Limit.get_limit")
p("Dictionary strings round-trip",
  "string_to_dict(dict_to_string(d)) = d for every dictionary of the kind stored with a spectrum.",
  "all dictionaries of strings/ROI dictionaries",
  "string contents are unbounded, including those containing the separators",
  "echidna/output/store.py:dict_to_string", "echidna/output/store.py:string_to_dict")
p("Storing and loading a spectrum is lossless",
  "load(dump(s)) gives a spectrum with the same name, data, configuration, fit configuration, num_decays, raw_events, bipo flag, style, ROIs and background name.",
  "all spectra",
  "ranges over all data and configurations",
  "echidna/output/store.py:dump", "echidna/output/store.py:load")
p("Dumping never damages other groups of a file",
  "dump with append keeps every other group of the file readable and unchanged, refuses to replace an existing group unless overwrite is given, and without append the file holds only the new group.",
  "all files and all sequences of dumps",
  "histories of dumps are unbounded",
  "echidna/output/store.py:dump", "echidna/output/store.py:dump_ndarray")
p("Configuration dump and load round-trip",
  "Loading the dictionary dumped from a SpectraConfig, SpectraFitConfig or GlobalFitConfig gives a configuration with the same parameters, values and fit results.",
  "all configurations",
  "ranges over all parameter sets and optional fields",
  CF+"SpectraConfig.dump", CF+"SpectraConfig.load", CF+"GlobalFitConfig.dump", CF+"GlobalFitConfig.load", PA+"FitParameter.to_dict")
p("Parameter indices, names and shapes are consistent",
  "For every configuration get_par_by_index(get_index(p)) is p, get_shape lists the bin numbers in the order of get_pars, get_index raises IndexError exactly for unknown names, and the global and spectral parameters of a GlobalFitConfig partition its parameters.",
  "all configurations, all histories of add_par/add_config",
  "histories of additions are unbounded",
  CF+"Config.get_index", CF+"Config.get_par_by_index", CF+"Config.get_shape", CF+"GlobalFitConfig.add_config")
p("Decay conversions are mutually inverse",
  "half_life <-> activity, activity <-> counts, counts <-> half-life and counts <-> effective mass conversions are mutually inverse, monotone in the documented direction, and reject non-positive live times and masses.",
  "all positive physical inputs",
  "continuous parameters",
  "echidna/calc/decay.py:DBIsotope")
p("The fitted spectrum is the sum of its parts",
  "For every assignment of parameter values, the expected spectrum compared with data is the projection of the fixed background plus every floating background, each with all its global and spectral parameters applied, plus the signal, likewise with all parameters applied.",
  "all fits with any number of backgrounds and parameters, all parameter values",
  "ranges over all parameter sets; single-parameter tests cannot see a dropped parameter",
  "echidna/fit/fit.py:Fit._funct")
p("Setting the ROI restricts every spectrum equally",
  "After fit preparation all spectra used in the fit have the binning of the data on the ROI dimensions, and the caller's original spectra are unaffected by building the fixed background.",
  "all fits",
  "depends on aliasing between spectra",
  "echidna/fit/fit.py:Fit.check_all_spectra", "echidna/fit/fit.py:Fit.make_fixed_background", "echidna/fit/fit.py:Fit.shrink_all")
p("Merging files is independent of the order",
  "combine_hdf5 on a list of compatible spectra gives the bin-wise total, total num_decays and total raw_events, whatever the order of the files.",
  "all lists of spectra, all permutations",
  "unbounded lists",
  "echidna/scripts/combine_hdf5.py", SP+"Spectra.add")
p("Fill index stays inside the array in floating point",
  "In IEEE binary64 arithmetic, a value accepted by the range check low <= v < high is always filled into a bin that exists.",
  "all binary64 values and bounds",
  "the failing inputs are single floating point numbers next to the upper edge",
  SP+"Spectra.fill")
p("The background name is derived from the spectrum name",
  "get_background_name returns an explicitly set name unchanged; otherwise for a name of the form <background>_<mc|mix|reco>... it returns <background>, it is stable under repeated calls and raises ValueError exactly when none of the markers occurs.",
  "all names",
  "strings are unbounded; the markers may occur inside the background's own name",
  SP+"Spectra.get_background_name")
p("ROOT filling counts every entry or trigger once",
  "fill_from_root counts, for a configuration with only mc/truth parameters, every usable entry exactly once, and for a configuration with a reco parameter every usable trigger exactly once (mc parameters read from the entry), in raw_events, in sum() and in the bin it lies in; with the bipo cut only entries with exactly one trigger are considered; a parameter of any other type raises IndexError.",
  "all ROOT files (any number of entries and triggers), all configurations",
  "ranges over all event streams; values read for one trigger must not leak into the next",
  "echidna/core/fill_spectrum.py:fill_from_root", "echidna/core/fill_spectrum.py:_root_mix", "echidna/core/fill_spectrum.py:_root_ev", "echidna/core/fill_spectrum.py:_root_mc")
p("set_par of a fit parameter takes effect and rebuilds its grid",
  "After a successful set_par every given attribute has its new value and the next get_values is the grid of the new attributes, whatever was cached before; a rejected call changes nothing; sigma may be set to None and the scale flags may be changed.",
  "all parameters, all sequences of keyword arguments",
  "depends on which keywords precede a rejected one and on the history of the cached grid",
  "echidna/core/parameter.py:FitParameter.set_par", "echidna/core/parameter.py:FitParameter.get_values")
p("Resetting a grid search makes it as good as new",
  "After reset_grids a grid search behaves like a newly created one with the same parameters: the next minimise succeeds and gives the same results.",
  "all grid searches, per bin or not, named or not, any history",
  "depends on how the search was constructed and on its history",
  "echidna/fit/minimise.py:GridSearch.reset_grids", "echidna/fit/minimise.py:GridSearch.minimise")
p("Configuration files round-trip",
  "For every configuration, dump_to_file followed by load_from_file of the same path(s) gives what load gives for the dumped dictionaries, global and spectral parameters go to separate files, other files are unchanged, and a blank name given to load_from_file uses the name of the file.",
  "all configurations, file systems, paths and file names",
  "depends on how names given, blank names and defaults combine; any other file may exist",
  CF+"GlobalFitConfig.dump_to_file", CF+"GlobalFitConfig.load_from_file", CF+"SpectraFitConfig.dump_to_file", CF+"SpectraConfig.load_from_file")
p("Storing and loading fit results is lossless",
  "load_fit_results(dump_fit_results(fr)) gives results with the same name, grid of statistics, penalty grid, number of resets, per-bin flag, spectra configuration and fit parameters (in the order of the grid's axes).",
  "all fit results, any other content of the file",
  "ranges over all grids and configurations; the order of the axes depends on the order in which the parameters were added",
  "echidna/output/store.py:dump_fit_results", "echidna/output/store.py:load_fit_results")
p("Storing and loading limit results is lossless",
  "load_limit_results(dump_limit_results(lr)) gives the same name, configurations, statistics, penalty terms, best fits and, for every signal value, the same fit result or none.",
  "all limit results, any number of signal values and fit results",
  "ranges over all grids, including all-zero ones, which are not written",
  "echidna/output/store.py:dump_limit_results", "echidna/output/store.py:load_limit_results", "echidna/fit/fit_results.py:LimitResults.__init__")
p("Objects holding arrays round-trip",
  "load_ndarray(dump_ndarray(o)) restores every array and every value of the object's attributes.",
  "all objects",
  "ranges over all sets of attributes and the state of the object that is read into",
  "echidna/output/store.py:dump_ndarray", "echidna/output/store.py:load_ndarray")
p("Evaluating the fit function leaves it unchanged",
  "The statistic and penalty that the fit function returns for given parameter values are the same after any number of evaluations with other values, whatever they computed and kept; so a grid search run on the fit stores at each grid point the value computed from the original spectra and returns the first smallest one.",
  "all fits, histories of evaluations, parameter values, statistics, penalty functions and grids",
  "the fit keeps convolved spectra in a dictionary and scales, shrinks and rebins spectra in place, so any earlier evaluation may have an effect",
  "echidna/fit/fit.py:Fit._funct", "echidna/fit/fit.py:Fit.shrink_to_data", "echidna/fit/minimise.py:GridSearch.minimise")
p("Transformations commute with the normalisation",
  "Smearing (weighted), shifting, stretching, rebinning or shrinking a spectrum scaled to any positive multiple of its decays gives the same spectrum, with the same outcome, as scaling the transformed one; its projections are the multiples of the original projections.",
  "all spectra, numbers of decays, resolutions, weights, shifts, stretch factors, ranges and binnings, and all interpolations linear in the contents",
  "ranges over all contents and normalisations; the code takes branches on the signs of sums of contents and divides by interpolated areas",
  "echidna/core/spectra.py:Spectra.scale", "echidna/core/smear.py:EnergySmearLY.weighted_smear", "echidna/core/shift.py:Shift.shift", "echidna/core/scale.py:Scale.scale", "echidna/core/spectra.py:Spectra.rebin", "echidna/core/spectra.py:Spectra.shrink", "echidna/core/spectra.py:Spectra.nd_project")
p("Scaling, removing and restoring the signal leaves no trace",
  "While a limit calculation scales the signal of a fit, removes it and puts it back between evaluations, the observed and expected spectra of every evaluation are those computed from the spectra the fit was given, with the original signal scaled to the number of decays asked for last (or without signal).",
  "all fits with a signal, all interleavings of evaluations with scalings, removals and returns of the signal, all parameter values",
  "the fit keeps convolved signals in a dictionary and rescales them in place, so the result may depend on any earlier evaluation and scaling",
  "echidna/fit/fit.py:Fit._funct", "echidna/fit/fit.py:Fit.remove_signal", "echidna/fit/fit.py:Fit.set_signal", "echidna/limit/limit.py:Limit.get_limit", "echidna/core/spectra.py:Spectra.scale")
p("A limit is determined by the best fits to the original spectra",
  "get_limit returns the first signal scaling, from the one with the smallest statistic on, at which the best-fit statistic, less that without signal, plus the penalties exceeds the threshold, where every best fit is the first smallest value over the parameter grid computed from the spectra the fit was given; it returns the same after any evaluations, scalings and limit calculations made before.",
  "all fits, parameter grids, signal scalings, thresholds, statistics and histories of evaluations, scalings and limit calculations",
  "composes the fit function, the stored convolutions, the grid search and the rescaling of the signal over unboundedly many fits",
  "echidna/limit/limit.py:Limit.get_limit", "echidna/fit/fit.py:Fit.fit", "echidna/fit/fit.py:Fit.check_fitter", "echidna/fit/minimise.py:GridSearch.minimise", "echidna/fit/fit_results.py:FitResults.get_summary")
p("The conversion scripts write the transformed spectrum and nothing else",
  "Each script that converts a file (scale, shift, smear, smear energy, shrink, rebin) reads the spectrum of the named file, applies the transformation its options name, and writes exactly one file, named after the input and the options, from which the transformed spectrum is read back with all its other attributes; if the transformation is refused no file changes; the input file and all other files stay as they are.",
  "all file systems, paths with a directory, spectra in the input, option values and outcomes of the transformation",
  "depends on the path, every option value and every spectrum in the file, and on all files that were there before",
  "echidna/scripts/dump_scaled.py:main", "echidna/scripts/dump_shifted.py:main", "echidna/scripts/dump_smeared.py:main", "echidna/scripts/dump_smeared_energy.py:main", "echidna/scripts/dump_shrink.py:main", "echidna/scripts/rebin.py:main", "echidna/output/store.py:dump", "echidna/output/store.py:load")
p("A fit that loads convolved spectra finds the files the scripts write",
  "If the scale and energy smearing scripts are run one after the other on the file of a spectrum, in the order of the fit's global parameters and into the folders named after dimension and systematic, then a fit with use_pre_made loads, for these parameter values, exactly the spectrum with all the parameters applied in that order; this holds for every combination of a whole grid of values, whose files never collide; the original file stays as it is and a script whose transformation is refused fails with that error.",
  "all file systems, base directories, file names, lists of scale and resolution parameters with distinct marks, values and orders in which the combinations are prepared",
  "two independent pieces of code build the same path from strings of arbitrary length, for every value and every number of parameters",
  "echidna/fit/fit.py:Fit.load_pre_made", "echidna/core/parameter.py:ResolutionParameter.get_pre_convolved", "echidna/core/parameter.py:ScaleParameter.get_pre_convolved", "echidna/scripts/dump_scaled.py:main", "echidna/scripts/dump_smeared_energy.py:main")
p("With convolved spectra from files the fit function depends on files, spectra and values only",
  "In a fit with use_pre_made, after any sequence of evaluations, the expected spectrum at given parameter values is the fixed background plus, for every floating background and the signal, the spectrum in the file for the values of the global parameters, scaled to the decays of the spectrum it stands for, cut and rebinned to the axes of the data, with the background's own parameters applied; a missing file gives the same error whatever was evaluated before; the spectra the fit was given are never changed; with the files written by the scripts this is the original spectrum with all global parameters applied; without global parameters the option has no effect.",
  "all fits, spectra, file systems, base directories and sequences of parameter values",
  "the fit keeps a cache of loaded spectra that share configurations with derived ones and are rescaled and cut in place, so the result could depend on the whole history",
  "echidna/fit/fit.py:Fit._funct", "echidna/fit/fit.py:Fit.load_pre_made", "echidna/output/store.py:load")
p("The filling scripts count every usable event once and write one file per spectrum",
  "dump_spectra_ntuple writes, for an ntuple or for each ntuple listed in a text file, a file named after it whose spectrum counts every usable entry exactly once and has as many decays as the ntuple has entries; multi_ntuple_spectrum does the same for all files of a directory together, whatever the order in which they are listed and however the entries are divided among them; dump_spectra_root does the same for ROOT files; nothing else is changed, and an outer radius without a radial3 axis is refused before anything is written.",
  "all event files, directories, listings, configurations, radii, BiPo options, names and files that were there before",
  "depends on every event of unboundedly many files, on the order of the directory listing and on the text of every path",
  "echidna/scripts/dump_spectra_ntuple.py:read_and_dump_ntuple", "echidna/scripts/multi_ntuple_spectrum.py:create_combined_ntuple_spectrum", "echidna/scripts/dump_spectra_root.py:read_and_dump_root", "echidna/core/fill_spectrum.py:fill_from_ntuple", "echidna/output/store.py:dump")
p("A picture of a spectrum shows its counts on its axes",
  "The histogram drawn for a dimension of a spectrum, with ROOT or with matplotlib, has the bins of that axis, and each bin holds exactly the counts of the spectrum with that coordinate, none of them in the underflow or overflow; the picture of two dimensions likewise, whichever of them is named first; a spectral plot shows every given spectrum, the sum of the backgrounds and the sum of all of them, each on its own axis, and refuses spectra with different axes.",
  "all spectra, numbers of dimensions, axes, bin contents, dictionaries of spectra and choices of what is background",
  "the heights depend on every bin of spectra with any number of dimensions and on the position of every bin centre relative to every edge, for every axis; a few rounded widths give one centre too many",
  "echidna/output/plot_root.py:plot_projection", "echidna/output/plot_root.py:plot_surface", "echidna/output/plot.py:plot_projection", "echidna/output/plot.py:spectral_plot", "echidna/output/plot.py:plot_surface", "echidna/output/plot.py:_produce_axis", "echidna/output/plot.py:_produce_bins")
p("The results of a limit calculation give back what was last set, and the graphs show it",
  "After any sequence of calls that set best fits, penalty terms and statistics, every way of reading the results - one value, the values of a parameter, the penalties at a scaling, the statistic with its penalties - gives the values set last for that scaling and parameter, zero if none was, with negative indices counted from the end; a call with an unknown parameter or scaling raises and changes nothing; each graph has one point for each scaling with the value read there, and drawing leaves the results as they are.",
  "all fit configurations, numbers of scalings, sequences of calls, indices and parameter names",
  "the value read depends on the whole history of calls, on aliasing between returned and stored arrays and on the position of a name in a configuration of any size",
  "echidna/fit/fit_results.py:LimitResults", "echidna/output/plot_root.py:plot_stats_vs_scale", "echidna/output/plot_root.py:plot_best_fit_vs_scale", "echidna/output/plot_root.py:plot_sigma_best_fit_vs_scale", "echidna/output/plot_root.py:plot_penalty_term_vs_scale")
p("A picture of the results of a grid fit shows the statistics and penalties it recorded",
  "The table of the statistic over two parameters, with or without penalties, has the axes of these parameters and in each cell the value the fit recorded at that combination, whichever parameter is named first; a graph over one parameter has one point for each of its values; the per-bin picture at chosen values or at the best fit shows the statistic of each spectral bin on the axes of the spectrum; parameters not drawn can be fixed by keyword.",
  "all grid fits, numbers of parameters, value grids, recorded statistics and penalties, orders of the names and keywords",
  "every cell of tables of arbitrary size has to be at its place and every penalty is found by looking up values with a tolerance",
  "echidna/output/plot_root.py:plot_raw_stats_vs_pars", "echidna/output/plot_root.py:plot_stats_vs_pars", "echidna/output/plot_root.py:plot_stats_vs_par_scale", "echidna/output/plot_root.py:plot_penalty_term_vs_par_scale", "echidna/output/plot_root.py:plot_per_bin", "echidna/fit/minimise.py:GridSearch.get_raw_stats", "echidna/fit/minimise.py:GridSearch.get_penalty_terms")
p("Limits of several signals from one fit do not depend on each other",
  "With one fit and several signals, each with its own Limit, get_limit gives for each signal the limit that follows from the spectra as they were given, whatever was done before: limits made for other signals (restricting them to the region or not), limits asked for in any order and any number of times, signals scaled, removed, put back and exchanged, the fit evaluated at any values. An evaluation sees, of the signals, only the one selected last, at the number of decays asked for last.",
  "all fits, lists of signals with distinct objects and names, sequences of operations, scalings and thresholds",
  "the fit, its cache of convolved spectra, the grid search and all spectra are shared and changed in place by every operation, so the answer could depend on the whole history",
  "echidna/limit/limit.py:Limit.__init__", "echidna/limit/limit.py:Limit.get_limit", "echidna/fit/fit.py:Fit.set_signal", "echidna/fit/fit.py:Fit.remove_signal", "echidna/fit/fit.py:Fit.fit", "echidna/scripts/klz_majoron_limits.py:main")
p("Counting in float64 is exact up to 2^53",
  "Filled event by event with the default weight, in any order of the events, each bin holds exactly the number of events that fall into it and sum() the number of events inside the axes, as long as no more than 2^53 events are filled. The same is true of every history of fills with whole-number weights, additions, shrinks, cuts and rebinnings, and of sums and projections, whatever order numpy adds in: the contents and the exceptions are those of exact arithmetic. At 2^53 counts a bin stops counting, and with fractional weights the contents depend on the order of the fills.",
  "all axes, events, whole-number weights, histories of operations, orders of summation",
  "float64 rounds after every addition and numpy chooses the order of its sums, so exactness has to be shown for every history and every order",
  "echidna/core/spectra.py:Spectra.fill", "echidna/core/spectra.py:Spectra.add", "echidna/core/spectra.py:Spectra.cut", "echidna/core/spectra.py:Spectra.rebin", "echidna/core/spectra.py:Spectra.sum", "echidna/core/spectra.py:Spectra.nd_project")
p("Rounding moves a spectrum by at most 2^-53 per operation",
  "After any history of fills, additions, scalings, shrinks, cuts and rebinnings with numbers that are not negative, every bin and the number of decays are within a factor (1 + 2^-53)^k of what exact arithmetic gives, where k counts the roundings on the way (one for a fill or an addition, two for a scaling, n - 1 for a sum of n numbers at most), as long as nothing overflows or underflows; the same operations raise. A spectrum that was scaled k times is within a relative error of 2k * 2^-52 of its first content times the ratio of the last and the first number of decays, however the targets jump. Scaling there and back need not give the contents back.",
  "all spectra, histories of operations of any length, orders of summation, targets",
  "errors of arbitrarily many roundings add up over a history; only a bound for every length shows that a fit that rescales a spectrum thousands of times can be trusted",
  "echidna/core/spectra.py:Spectra.scale", "echidna/core/spectra.py:Spectra.fill", "echidna/core/spectra.py:Spectra.add", "echidna/core/spectra.py:Spectra.cut", "echidna/core/spectra.py:Spectra.rebin", "echidna/core/spectra.py:Spectra.sum")
p("The checks of parameter values report exactly what is wrong with them",
  "check_values warns that values lie outside the bounds of the parameter exactly when some do, with their number, and that the prior is not among the values exactly when no value is within a relative 5e-13 of it. In cautious mode the first of the warnings is raised instead, and a Fit can be built exactly when there is nothing to warn about the parameters of its spectra. An odd number of values placed symmetrically about the prior (in value, or on a logarithmic scale in ratio) and logscale_deviation are never warned about, an even number is; rates are outside their bounds exactly when they are negative. Two gaps: a prior of 0 is always reported missing, also when it is on the grid, so that in cautious mode no parameter with prior 0 can be fitted; and global parameters are not checked.",
  "all parameters, grids, bounds, priors, configurations of fits and floating backgrounds, both modes",
  "the check divides by the prior, rounds and compares; whether it ever misses or invents a problem depends on all values of the grid",
  "echidna/core/parameter.py:FitParameter.check_values", "echidna/fit/fit.py:Fit.check_fit_config", "echidna/fit/fit.py:Fit.__init__", "echidna/utilities.py:start_logging")
p("What get_limit stores is what it answered from",
  "With store_limit, get_limit writes one file, and reading it back with load_limit_results gives, for every signal scaling, the statistic relative to the reference, the best fit and penalty term of every parameter and (with store_fits) the grids of the fit made in this call, whatever was calculated with the same Limit before; the returned limit is the first scaling from the minimum on whose stored full statistic exceeds the threshold. The file has the name asked for, with .hdf5 added unless it is there, else one made from the name of the results and the time. If a fit raises nothing is written or logged. Three gaps: if no limit is found the name asked for is ignored; store_spectra makes every call raise after the results were written; and the logged best fits, penalty terms and statistic belong to the answer only if the statistic is least at the first scaling.",
  "all results of fits, numbers of scalings and parameters, orders of the summaries, earlier calls with the same object, options and file names",
  "a test compares one file with one call; which row of which earlier call ends up in the file, under which name, depends on all calls and on where the minimum and the crossing are",
  "echidna/limit/limit.py:Limit.get_limit", "echidna/fit/fit_results.py:LimitResults", "echidna/output/store.py:dump_limit_results", "echidna/output/store.py:load_limit_results")
p("Every message is logged exactly once",
  "From the first successful start_logging on, whatever is logged and however often and with whatever settings logging is started again, the log file named at the first start holds every message of level debug or higher once, in order, and no other file is touched; the terminal shows once those at or above the log_level of the settings at the first start, messages of the extra logger and loggers below it without their name. A UserWarning raises if and only if some start so far was made in cautious mode; else it goes to the log if the last start asked for it. Two processes on one machine have different log files. Known gaps: a message through the logging module itself before the first start, as the value grids of parameters log, means that no log file is ever made and nothing below warning is shown; and a start that failed over the log level fixes the file.",
  "all histories of starts, settings, loggers, levels and messages before and after the first start, all logger hierarchies",
  "a test logs a few messages after one start; repeated, failed and reconfigured starts and messages before the start come in unboundedly many orders",
  "echidna/utilities.py:start_logging", "echidna/utilities.py:DispatchingFormatter", "echidna/settings.py:user_profile")
p("Errors of arrays are one factor or one number for every entry",
  "get_array_errors gives for every entry, in order, the linear error, or on a logarithmic scale the same relative error for all entries (e^err or 10^err as factor; empty bins stay empty), and raises ValueError if it has no error to apply. Hence the bounds of the plot-grab script multiply a spectrum of one dimension and its total by one power of ten, the signal by its inverse, and both together change nothing. Known gaps: the errors come back flat, so spectra of several dimensions raise or get too many bins; a fraction given alone is ignored; the bounds go in the direction opposite to the one documented.",
  "all arrays of non-negative contents, shapes, errors and scales",
  "equality of factors over all entries of all arrays is a statement about real functions, tests compare a few floats with a tolerance",
  "echidna/utilities.py:get_array_errors", "echidna/scripts/klz_majoron_limits.py:main")
p("In floating point, lookups, fills, centres and edges of bins agree away from edges",
  "Computed in float64, a value at least (i+1)*2^-50 bin widths inside the edges of bin i of an axis is both looked up (get_bin) and filled into bin i; lookups of values between the bounds never fail, stay between 0 and the number of bins and never fall as the value grows. On axes whose bins are not too narrow for the size of the bounds, get_bin_centre(i) is within an eighth of a bin of the true centre and is looked up and filled into bin i, get_bin_centres has exactly one entry per bin, each looked up in its own bin, and get_bin_boundaries has one entry more than bins, starts and ends at the bounds and rises strictly. At an edge itself lookup and fill may differ (0.3 on ten bins of [0, 1)), the upper bound may be looked up in the last bin or one past it, and on axes that are too narrow centres may repeat or be missing.",
  "all finite bounds up to 2^1000, all numbers of bins up to 2^46, all float64 values",
  "rounding errors depend on bounds, number of bins and value; tests try a few round numbers where nothing is rounded",
  "echidna/core/parameter.py:SpectraParameter.get_bin", "echidna/core/parameter.py:SpectraParameter.get_bin_centre", "echidna/core/parameter.py:SpectraParameter.get_bin_centres", "echidna/core/parameter.py:SpectraParameter.get_bin_boundaries", "echidna/core/spectra.py:Spectra.fill")
p("A configuration holds exactly what its file describes",
  "Reading a configuration written by hand succeeds exactly when every entry describes a parameter (axes: low, high and bins; fit parameters: also prior and sigma, and optionally the scale, base, dimension and earlier results), and gives parameters with those names, classes, values and defaults in the order of the file; spectral parameters follow the global ones. Otherwise the first wrong entry decides the exception: TypeError for unknown or missing keys and for null in the place of a number, ValueError for a text there, IndexError for a parameter that is no rate or no known systematic, KeyError for a missing or empty section, IOError for a missing file.",
  "all dictionaries read from files: any keys, any order, any values, any number of dimensions and parameters",
  "the space of hand-written files is unbounded; tests read the example files",
  "echidna/core/config.py:SpectraConfig.load", "echidna/core/config.py:SpectraFitConfig.load", "echidna/core/config.py:GlobalFitConfig.load", "echidna/core/parameter.py:FitParameter", "echidna/core/parameter.py:SpectraParameter")
p("The methods of a fit take spectra into the region or refuse them",
  "With shrink, set_data, set_fixed_background, set_signal and set_floating_backgrounds restrict each spectrum to the region of interest and hold it with its axes of the region; no other attribute of the fit and no spectrum with another configuration changes; a spectrum without an axis of the region is refused with IndexError. Without shrink, data and fixed background are taken as they are if their bounds are those of the region within the tolerance, and refused otherwise. append_fixed_background adds each further spectrum, restricted and scaled to its number of decays, to the fixed background. set_roi replaces the region or keeps the old one. A fit without floating backgrounds gives the test statistic of the data and of the fixed background plus the signal, bin by bin or in one bin. Known gaps: when set_floating_backgrounds raises, the backgrounds before are restricted already; append_fixed_background without a fixed background raises AttributeError after cutting the axes of the first spectrum.",
  "all regions, spectra of any number of dimensions, numbers of decays, lists of backgrounds, and all states of a fit",
  "effects on shared spectra and on every other attribute must hold for every combination of spectra; tests set one spectrum of one dimension",
  "echidna/fit/fit.py:Fit.set_data", "echidna/fit/fit.py:Fit.set_fixed_background", "echidna/fit/fit.py:Fit.set_signal", "echidna/fit/fit.py:Fit.set_floating_backgrounds", "echidna/fit/fit.py:Fit.append_fixed_background", "echidna/fit/fit.py:Fit.set_roi", "echidna/fit/fit.py:Fit.fit")
p("set_par of an axis sets what it is given and nothing else",
  "set_par of an axis with numbers for some of low, high and bins sets those (the number of bins cut off behind the point) and leaves the others, whatever the order in which the keywords are walked through; passing the dictionary that to_dict gives makes the axis equal to the one it came from, and the bin width follows. An unknown keyword raises TypeError, a value that is no number TypeError or ValueError. The unit is MeV for energy and mm for radial. Known gaps: a call that raises may have set other keywords already, depending on the order of the walk; get_unit gives None for other names instead of the documented exception.",
  "all axes, all sets of keywords with any values in any order, all names",
  "the order in which keywords are walked through is not fixed by the language; a test sees one order",
  "echidna/core/parameter.py:SpectraParameter.set_par", "echidna/core/parameter.py:SpectraParameter.get_unit", "echidna/core/parameter.py:Parameter.to_dict")
p("get_statistics gives the best fits of all scalings, whatever was asked before",
  "get_statistics of a Limit returns, for each scaling of the signal in order, what the fit finds with the signal at that scaling (none at zero) and the spectra the fit was given, whatever was evaluated, scaled or asked from the Limit before. With floating backgrounds each entry is a row of statistic and penalty of the best grid point; without, it is the statistic of the data and of the fixed background plus the signal. The exception of the first fit that raises comes out. Read by get_array_limit, the rows give the first scaling whose statistic and penalty together exceed the threshold. Known gaps: with floating backgrounds the array is two-dimensional although one statistic per scaling is documented, and no minimum is subtracted, unlike in get_limit; with two or more global parameters only the last one is applied to the signal.",
  "all fits with a prepared signal, all lists of scalings, all earlier histories of evaluations, limits and statistics",
  "the signal spectrum is rescaled in place again and again and shares stored convolutions with earlier fits; a test checks one call on a fresh fit",
  "echidna/limit/limit.py:Limit.get_statistics", "echidna/limit/limit.py:Limit.get_array_limit", "echidna/fit/fit.py:Fit.fit", "echidna/fit/fit.py:Fit.remove_signal")
p("Values set in a grid search are the ones read back",
  "set_stat and set_penalty_term write a value to the grid points that their indices select, repeated over the bins as numpy does, and change no other point, no parameter and not the other array; set_stats and set_penalty_terms replace an array by one of the same shape. Indices outside the grid raise IndexError, values and arrays of a wrong shape ValueError, and nothing changes. get_raw_stat, get_penalty_term and get_stat give the part of the arrays selected by the indices, get_stat with the statistic summed over the bins and the penalty added. After any history of writes each point holds the last accepted value written to it, or 0.",
  "all grid searches with any number of parameters and bins, per bin or not, all indices from 0, all values and arrays, all histories of writes",
  "broadcasting rules and partial indices give unboundedly many combinations, and histories of writes are unbounded; a test writes and reads a few points",
  "echidna/fit/minimise.py:GridSearch.set_stat", "echidna/fit/minimise.py:GridSearch.set_penalty_term", "echidna/fit/minimise.py:GridSearch.set_stats", "echidna/fit/minimise.py:GridSearch.set_penalty_terms", "echidna/fit/minimise.py:GridSearch.get_stat", "echidna/fit/minimise.py:GridSearch.get_raw_stat", "echidna/fit/minimise.py:GridSearch.get_penalty_term")
p("Projections of a grid search's statistics keep the named parameters",
  "nd_project_stats and nd_project_stat return the statistics (of the whole grid, or at a grid point) summed over every fit and spectral parameter that is not named, one axis for each that is, and raise IndexError for a name that is neither. (At this commit no projection is returned at all: the module uses itertools without importing it. With the name bound, nd_project_stats is right only if every spectral parameter is named, and nd_project_stat only if all are.)",
  "all grid searches, all numbers and sizes of fit and spectral parameters, all lists of names and indices, with and without the missing import",
  "which axis is summed depends on how many were summed before, so each combination of named and unnamed parameters behaves differently; no test calls either method",
  "echidna/fit/minimise.py:GridSearch.nd_project_stat", "echidna/fit/minimise.py:GridSearch.nd_project_stats", "echidna/fit/minimise.py:GridSearch.get_raw_stats", "echidna/fit/minimise.py:GridSearch.get_raw_stat")
p("In floating point, a shrink keeps the bins that were asked for",
  "In binary64, shrinking an axis to bounds that lie in bins i (lower) and j-1 (upper), or within 1/200 of a bin outside them because of rounding, keeps exactly the bins i to j-1, and the new bounds are the edges of those bins up to 1/500 of a bin. In particular two values of get_bin_boundaries cut out exactly the bins between them, and a shrink to the axis's own bounds keeps every bin. (True of axes whose lower bound is a multiple of the bin width; on others the code loses requested bins and moves the bounds to multiples of the width.)",
  "all binary64 bounds and numbers of bins with |low|, |high| up to 2^36 bin widths, all requested bounds not within the last 1/50 of a bin before the next edge",
  "whether (x - low)/width truncates to the right integer depends on the last bit of each rounding; 0.3 on ten bins from 0 to 1 already comes out as 2.9999999999999996",
  "echidna/core/spectra.py:Spectra.shrink", "echidna/core/parameter.py:SpectraParameter.round", "echidna/core/parameter.py:SpectraParameter.get_width", "echidna/core/parameter.py:SpectraParameter.get_bin_boundaries")
p("Pictures of chi squareds show the numbers they are given",
  "The graphs over signal counts, inverse half-life and effective mass have one point for each count, with the converted count and its chi squared; the colour maps over counts and values of a systematic show at each pair the mean chi squared over the fits (turn_on: minus the chi squared without systematic; push_pull: twice the penalty minus it), with preferred values and minima drawn over; the histogram of chi squareds per bin holds number i in bin i + 1. (The maps leave out the last count and the last value; the units half-life and mass never work with matplotlib; saving the penalties and the spectral plot made with ROOT always raise.)",
  "all numbers of counts, values and fits, all chi squareds, penalties, converters and isotopes",
  "a transposed or shifted picture looks plausible, and sizes and numbers are unbounded; the repository has no test of these functions",
  "echidna/output/plot_chi_squared.py:chi_squared_vs_signal", "echidna/output/plot_chi_squared.py:chi_squared_map", "echidna/output/plot_chi_squared.py:turn_on", "echidna/output/plot_chi_squared.py:push_pull", "echidna/output/plot_chi_squared.py:penalty_vs_systematic", "echidna/output/plot_chi_squared_root.py:chi_squared_vs_half_life", "echidna/output/plot_chi_squared_root.py:chi_squared_vs_mass", "echidna/output/plot_root.py:plot_chi_squared_per_bin", "echidna/output/plot_root.py:spectral_plot")
p("An interrupted save is never mistaken for a complete one",
  "Saving a spectrum, fit results or limit results to a file is a sequence of writes. If it is stopped between any two of them (KeyboardInterrupt, a full disk, an exception), loading the file afterwards gives what the file held before or raises an error; it never gives part of what was being written. When the save was appending, the other objects of the file are unchanged. The same save made again then succeeds and leaves the file as if it had not been interrupted.",
  "every file, every spectrum, fit results and limit results, every mode (append, overwrite), every number of writes after which the save is stopped, and every history of stopped saves of any kinds",
  "the crash point is arbitrary and a test of store.py runs to the end of the save; what matters is the order of the writes relative to what the loader reads",
  "echidna/output/store.py:dump", "echidna/output/store.py:dump_ndarray", "echidna/output/store.py:dump_fit_results", "echidna/output/store.py:dump_limit_results",
  "echidna/output/store.py:load", "echidna/output/store.py:load_fit_results", "echidna/output/store.py:load_limit_results", "echidna/output/store.py:load_ndarray")
p("Smearing weights follow the Gaussian or Poisson distribution of the resolution that was set",
  "The weights that weighted_smear gives to the energies of a window are values of a Gaussian with the width of get_sigma, symmetric, falling with the distance, and with integral one (a window of k sigma holds all but 2 exp(-k^2/2) of it), or, with Poisson statistics, the Poisson probabilities of the numbers of photons: they sum to one, their mean is the energy being smeared and their variance is the square of get_sigma. They are positive and depend on the settings of the object only, not on what it was used for before (it remembers logarithms of factorials).",
  "all energies, means, light yields and resolutions, all windows, and all histories of set_resolution, calc_poisson_energy and smearing on one object",
  "integrals and infinite sums, real numbers, and a memo table whose correctness depends on the history of the object",
  "echidna/core/smear.py:Smear.calc_gaussian", "echidna/core/smear.py:EnergySmearLY.calc_poisson_energy", "echidna/core/smear.py:EnergySmearRes.calc_poisson_energy",
  "echidna/core/smear.py:EnergySmearLY.weighted_smear", "echidna/core/smear.py:EnergySmearRes.weighted_smear", "echidna/core/smear.py:EnergySmearRes.set_resolution")
p("A fit that is not ready is refused before it is run, and refusing changes nothing",
  "fit() on a fit without data or background, with data, fixed background or signal off the region of interest, with floating backgrounds that fail their checks or have no parameters, with parameters of spectra but no floating background, without minimiser, or with a minimiser or statistic that does not keep bins although the fit does, raises the exception for that and leaves the fit and all spectra as they were; a fit that is ready is run. set_minimiser is refused in the same way unless the spectra are ready, and makes the minimiser that the fit needs. The full claim, that this holds of every call of fit(), fails: the check is made before the first run only, and it does not look at the bounds of floating backgrounds.",
  "all fits, spectra, regions, parameters, minimisers and flags",
  "the ways in which a fit can be incomplete combine freely with all spectra; tests try single omissions",
  "echidna/fit/fit.py:Fit.check_fitter", "echidna/fit/fit.py:Fit.check_all_spectra", "echidna/fit/fit.py:Fit.check_spectra", "echidna/fit/fit.py:Fit.check_fit_config", "echidna/fit/fit.py:Fit.set_minimiser", "echidna/fit/fit.py:Fit.fit")
p("Files of the old format load as the spectrum that was written",
  "load() of a file without a group spectrum, whose own attributes hold name, numbers of decays and events, bipo (0 if missing), style, rois (empty) and for each axis pars:axis:low, high and bins, gives the spectrum with these, the data of the file, the default name of the configuration and no fit configuration, whatever the order of the attributes. The axes come in their order, so that they match the dimensions of the data. A missing file and a file of neither format raise.",
  "all names, axes, numbers, data, styles that dict_to_string can write, and all orders of the attributes of the file",
  "the attributes come in an order that the file library chooses, and axes and their names are unbounded; tests only load files of the new format",
  "echidna/output/store.py:load", "echidna/output/store.py:_load_old", "echidna/output/store.py:string_to_dict")
p("What is loaded from a file matches its own configuration, whatever the file holds",
  "Fit results loaded from a file have statistics and penalty terms with one place for each point of the grid of their configuration (and each bin of the spectrum, if per bin), the arrays and name of the file, or loading raises; likewise limit results match the number of scalings of their configuration, and spectra their axes. A missing file raises IOError, a file without the group KeyError.",
  "all files with any groups, attributes and arrays, not only those that were written by the package",
  "files may be edited, damaged or written by other versions: the contents of a file are arbitrary, and a result of wrong size gives wrong limits without an error",
  "echidna/output/store.py:load_fit_results", "echidna/output/store.py:load_limit_results", "echidna/output/store.py:load", "echidna/output/store.py:load_ndarray", "echidna/fit/minimise.py:GridSearch.set_stats", "echidna/fit/minimise.py:GridSearch.set_penalty_terms")
p("A statistic adds over bins in any order, never grows when bins are merged, and never falls when the model moves away from the data",
  "compute_statistic (not per bin) of each of the six statistics gives the same number for the bins in any other order, the sum of its numbers for two parts of the data, no larger number after merging bins in groups of any sizes, and no larger number for a model whose expected content lies between the observed and the earlier expected content in every bin. For the last two all expected contents are at least 1e-34 and observed contents that or zero (not zero for Neyman).",
  "all statistics, all numbers of bins, all real contents, all permutations, splittings and groupings",
  "inequalities between real functions (log sum inequality) for all real contents and all groupings; the comparison of fits and the choice of binning rest on them",
  "echidna/fit/test_statistic.py:TestStatistic.compute_statistic", "echidna/fit/test_statistic.py:BakerCousinsChi", "echidna/fit/test_statistic.py:BakerCousinsLL", "echidna/fit/test_statistic.py:Neyman", "echidna/fit/test_statistic.py:Pearson", "echidna/fit/test_statistic.py:ExtendedLL")
p("Transforming a sum of spectra gives the sum of the transformed spectra",
  "For two spectra with the same axes, rebin, shrink, weighted smearing and shifting by whole bins of the spectrum left by add give the same contents, decays and description as adding the two rebinned, shrunk, smeared or shifted spectra; project and nd_project of the sum are the sums of the projections. rebin and shrink are refused for the sum exactly when they are for either part.",
  "all pairs of spectra with the same axes, all contents, new bins, bounds, smearing windows and weights, shifts and dimensions",
  "analyses add backgrounds before or after transforming them and must not depend on which; this has to hold for all contents, including those that cancel",
  "echidna/core/spectra.py:Spectra.add", "echidna/core/spectra.py:Spectra.rebin", "echidna/core/spectra.py:Spectra.shrink", "echidna/core/spectra.py:Spectra.project", "echidna/core/spectra.py:Spectra.nd_project", "echidna/core/smear.py:EnergySmearLY.weighted_smear", "echidna/core/shift.py:Shift.shift_by_bin", "echidna/core/scale.py:Scale.scale")
p("Shrinking in steps is shrinking at once",
  "Shrinking a spectrum with one set of bounds and then with a second set that is allowed for the result leaves the same contents, axes and description as shrinking it once with the later of the lower and the earlier of the upper bounds on every axis; so the order of the steps does not matter.",
  "all spectra, dimensions, pairs of sets of bounds on any of the axes, at bin edges or inside bins",
  "the bounds are converted to bins, rounded and stored by every step: that the errors do not pile up must hold for all bounds and all axes",
  "echidna/core/spectra.py:Spectra.shrink", "echidna/core/spectra.py:Spectra.cut", "echidna/core/spectra.py:Spectra.shrink_to_roi")
p("A projection is not affected by what was done to the other dimensions",
  "Projecting a rebinned spectrum onto a dimension gives the projection of the original spectrum with its neighbouring entries merged as that dimension's bins were, whatever the new bins of the other dimensions; smearing one dimension, where it loses nothing, leaves the projections onto the other dimensions as they were.",
  "all spectra, all new bins that divide the old ones, all dimensions projected onto or smeared, all smearing widths and weights",
  "fits project a many-dimensional spectrum after transforming it and compare it with a directly made one-dimensional one; this has to hold for all contents and all binnings",
  "echidna/core/spectra.py:Spectra.rebin", "echidna/core/spectra.py:Spectra.project", "echidna/core/smear.py:EnergySmearLY.weighted_smear")
p("The fiducial cut looks at the position it was told to look at",
  "An extractor made with reco_pos or mc_pos accepts exactly the entries that carry what it reads and whose position of the requested kind is inside the fiducial radius: the true position for true quantities and the reconstructed one for reconstructed quantities by default, the other one on request, and always the reconstructed one for external events. Combinations that make no sense are refused when the extractor is made.",
  "all kinds of extractors, radii, flags, ntuple and ROOT entries and positions, including positions at the radius",
  "the same cut is written out for nine classes and two file formats; that none of them looks at the wrong position must hold for all entries and flags",
  "echidna/core/dsextract.py:EnergyExtractMC", "echidna/core/dsextract.py:EnergyExtractReco", "echidna/core/dsextract.py:EnergyExtractTruth", "echidna/core/dsextract.py:RadialExtractMC", "echidna/core/dsextract.py:RadialExtractReco", "echidna/core/dsextract.py:Radial3ExtractMC", "echidna/core/dsextract.py:Radial3ExtractReco")
p("Shifts by whole bins along different axes do not influence each other",
  "For spectra without negative contents, shifting by whole bins along one axis and then along another gives the same contents and description in either order, and the projection onto a shifted dimension is the projection of the original spectrum moved by as many bins, with zeros for the bins that are moved in.",
  "all spectra without negative contents, pairs of axes, numbers of bins up or down, including shifts beyond the end of the axis",
  "fits convolve spectra with several shifts in the order of a dictionary, which must not matter for any contents and any shifts",
  "echidna/core/shift.py:Shift.shift", "echidna/core/shift.py:Shift.shift_by_bin", "echidna/core/spectra.py:Spectra.project")
open("/verif/properties.jsonl","w").write("".join(json.dumps(x)+"\n" for x in P))
print(len(P))
