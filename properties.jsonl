{"id": "C01", "title": "Species specification is canonical", "statement": "A Plasma parses one species argument into the sorted tuple of its '+'-separated names: the tuple does not depend on the order in which the names are written, and re-joining it with '+' and parsing again gives the same tuple. Several arguments give the sorted tuple of the arguments.", "quantifier": "all strings and all lists of strings", "why_tests_cant": "the set of species strings is infinite", "anchors": ["solarwindpy/core/base.py:Base._conform_species"]}
{"id": "C02", "title": "Species arguments are rejected exactly in the documented cases", "statement": "Parsing raises TypeError iff some argument is not a string; otherwise ValueError iff some argument contains ',' or there are several arguments and one contains '+'; otherwise it succeeds.", "quantifier": "all argument lists, strings or not", "why_tests_cant": "an iff over all argument lists", "anchors": ["solarwindpy/core/base.py:Base._conform_species"]}
{"id": "C03", "title": "Setting species validates and sorts", "statement": "Constructing a Plasma stores the species sorted; an empty list raises ValueError and a name containing '+' is rejected; the operation is idempotent.", "quantifier": "all species tuples", "why_tests_cant": "all tuples of names", "anchors": ["solarwindpy/core/base.py:Base._clean_species_for_setting", "solarwindpy/core/plasma.py:Plasma._set_species"]}
{"id": "C04", "title": "Unavailable species are always reported", "statement": "If a requested species is not held by the Plasma, the species check raises ValueError, and otherwise returns the canonical tuple.", "quantifier": "all species lists, all plasmas", "why_tests_cant": "the check is an any() over strings; one string is falsy", "anchors": ["solarwindpy/core/plasma.py:Plasma._chk_species"]}
{"id": "C05", "title": "drop_species returns exactly the remaining plasma", "statement": "drop_species returns a plasma whose species are the old ones minus the dropped ones, whose columns are exactly those with an empty or a remaining species, with unchanged values; ValueError when nothing would remain.", "quantifier": "all plasmas, names and rows", "why_tests_cant": "all column sets and species subsets", "anchors": ["solarwindpy/core/plasma.py:Plasma.drop_species"]}
{"id": "C06", "title": "Plasma keeps exactly the plasma columns", "statement": "After construction the data hold exactly the input columns with M in {b,n,v,w}, C in {'',x,y,z,per,par} and S in the species or '', plus one computed scalar thermal speed per species with w data; every kept value is unchanged; KeyError iff a needed label is absent.", "quantifier": "all input tables", "why_tests_cant": "all column sets", "anchors": ["solarwindpy/core/plasma.py:Plasma.set_data"]}
{"id": "C07", "title": "Scalar thermal speed is the trace average", "statement": "w_scalar^2 = (2 w_per^2 + w_par^2)/3, so it lies between w_per and w_par, and equals them when they are equal.", "quantifier": "all rows with finite non-negative thermal speeds", "why_tests_cant": "all real inputs", "anchors": ["solarwindpy/core/plasma.py:Plasma.set_data"]}
{"id": "C08", "title": "Missing thermal speed makes the scalar thermal speed missing", "statement": "If w_par or w_per is NaN in a row then w_scalar is NaN in that row.", "quantifier": "all rows", "why_tests_cant": "NaN handling of groupby-sum is silent; every NaN pattern matters", "anchors": ["solarwindpy/core/plasma.py:Plasma.set_data"]}
{"id": "C09", "title": "Setting a plasma's own data back changes nothing", "statement": "set_data(plasma.data) leaves the data unchanged (the scalar columns are dropped and recomputed).", "quantifier": "all plasmas", "why_tests_cant": "all tables", "anchors": ["solarwindpy/core/plasma.py:Plasma.set_data"]}
{"id": "C10", "title": "Total density and pressure are sums over species", "statement": "n, rho and pth of 's0+s1+...' equal the sums of the single-species values (all rows without NaN); they are monotone in each species and non-negative when the parts are.", "quantifier": "all species lists and rows", "why_tests_cant": "any number of species", "anchors": ["solarwindpy/core/plasma.py:Plasma.number_density", "solarwindpy/core/plasma.py:Plasma.mass_density", "solarwindpy/core/plasma.py:Plasma.pth"]}
{"id": "C11", "title": "Missing measurements propagate into totals", "statement": "If a requested species' density or pressure is NaN in a row then the reported total is NaN in that row.", "quantifier": "all rows", "why_tests_cant": "silent skipna", "anchors": ["solarwindpy/core/plasma.py:Plasma.number_density", "solarwindpy/core/plasma.py:Plasma.pth", "solarwindpy/core/plasma.py:Plasma.temperature"]}
{"id": "C12", "title": "Ideal gas relation per species", "statement": "pth, n and temperature of each species satisfy pth = n k T up to the fixed unit factor, and pth = (1/2) rho w^2; the scalar pressure equals (2 pth_per + pth_par)/3.", "quantifier": "all rows", "why_tests_cant": "all reals", "anchors": ["solarwindpy/core/ions.py:Ion.pth", "solarwindpy/core/ions.py:Ion.temperature", "solarwindpy/core/ions.py:Ion.rho"]}
{"id": "C13", "title": "Beta is thermal over magnetic pressure and additive", "statement": "beta = pth / (B^2/(2 mu0)) in consistent units, beta(s0+s1) = beta(s0)+beta(s1), scaling B by k scales beta by 1/k^2; beta is infinite/NaN only when B = 0.", "quantifier": "all rows, species lists", "why_tests_cant": "all reals", "anchors": ["solarwindpy/core/plasma.py:Plasma.beta"]}
{"id": "C14", "title": "Anisotropy is pth_per/pth_par", "statement": "anisotropy of a species or a total equals pth_per/pth_par, and is 1 iff the pressures agree.", "quantifier": "all rows with positive pressures", "why_tests_cant": "all reals", "anchors": ["solarwindpy/core/plasma.py:Plasma.anisotropy"]}
{"id": "C15", "title": "Centre-of-mass velocity", "statement": "velocity('s0+s1+...') is the rho-weighted mean of the species velocities: each component lies between the smallest and largest species component, a single species is returned unchanged, and equal velocities give that velocity.", "quantifier": "all rows with positive mass densities, any number of species", "why_tests_cant": "any number of species", "anchors": ["solarwindpy/core/plasma.py:Plasma.velocity"]}
{"id": "C16", "title": "Differential flow is antisymmetric", "statement": "dv(s0,s1) = -dv(s1,s0) component-wise, dv = v(s0)-v(s1), and asking for dv of a species against itself raises NotImplementedError.", "quantifier": "all rows and species pairs", "why_tests_cant": "all pairs", "anchors": ["solarwindpy/core/plasma.py:Plasma.dv"]}
{"id": "C17", "title": "Two-species dynamic pressure is reduced-mass drift pressure", "statement": "pdynamic(s0,s1) equals (1/2) rho0 rho1/(rho0+rho1) |dv|^2 (up to the unit factor); it is non-negative, symmetric in the species and zero iff the drift is zero.", "quantifier": "all rows with positive mass densities", "why_tests_cant": "all reals", "anchors": ["solarwindpy/core/plasma.py:Plasma.pdynamic"]}
{"id": "C18", "title": "Sound speed", "statement": "The sound speed squared times the total density is (5/3) times the total pressure (unit factor), so it is non-negative; defined whenever rho>0.", "quantifier": "all rows", "why_tests_cant": "all reals", "anchors": ["solarwindpy/core/plasma.py:Plasma.sound_speed", "solarwindpy/core/ions.py:Ion.cs"]}
{"id": "C19", "title": "Alfven speed", "statement": "ca = B/sqrt(mu0 rho): scales linearly with B, is non-increasing in every species' density; ca of more species is not larger than of fewer.", "quantifier": "all rows, species lists", "why_tests_cant": "all reals and lists", "anchors": ["solarwindpy/core/plasma.py:Plasma.ca"]}
{"id": "C20", "title": "Anisotropy factor is additive", "statement": "afsq = 1 + (beta_per - beta_par)/2, afsq(s0+s1)-1 = (afsq(s0)-1)+(afsq(s1)-1) and an isotropic plasma has afsq = 1; caani^2 = ca^2 * afsq for the pressure-only case.", "quantifier": "all rows, species lists", "why_tests_cant": "all reals", "anchors": ["solarwindpy/core/plasma.py:Plasma.afsq", "solarwindpy/core/plasma.py:Plasma.caani"]}
{"id": "C21", "title": "Coulomb logarithm is symmetric", "statement": "lnlambda(s0,s1) = lnlambda(s1,s0) for every pair.", "quantifier": "all rows and pairs", "why_tests_cant": "all reals", "anchors": ["solarwindpy/core/plasma.py:Plasma.lnlambda"]}
{"id": "C22", "title": "Collision frequency pair rules", "statement": "nuc needs exactly two species; asking for a species with itself raises; nuc is the sum of both directions when both_species; zero drift gives a defined limit.", "quantifier": "all rows and pairs", "why_tests_cant": "limit behaviour at dv=0", "anchors": ["solarwindpy/core/plasma.py:Plasma.nuc"]}
{"id": "C23", "title": "Electron estimate is charge neutral and current free", "statement": "estimate_electrons gives n_e = sum_s Z_s n_s and v_e = sum_s Z_s n_s v_s / n_e, so total charge and current vanish; refuses if electrons already exist; with inplace the plasma gains species 'e' and no other column changes.", "quantifier": "all plasmas of known ions", "why_tests_cant": "all species sets and rows", "anchors": ["solarwindpy/core/plasma.py:Plasma.estimate_electrons"]}
{"id": "C24", "title": "Electron estimate has T_e = T_p", "statement": "The estimated electron temperature equals the proton temperature.", "quantifier": "all rows", "why_tests_cant": "all reals", "anchors": ["solarwindpy/core/plasma.py:Plasma.estimate_electrons"]}
{"id": "C25", "title": "Auxiliary and spacecraft data stay aligned", "statement": "set_auxiliary_data and set_spacecraft accept a table only if its index equals the plasma's and (aux) shares no column with it; after a rejection the previous value is kept.", "quantifier": "all histories of set calls", "why_tests_cant": "all call histories", "anchors": ["solarwindpy/core/plasma.py:Plasma.set_spacecraft", "solarwindpy/core/plasma.py:Plasma.set_auxiliary_data"]}
{"id": "C26", "title": "Save then load is the identity", "statement": "Saving a plasma and loading it with the same keys from the same file returns the same data (scalar columns recomputed), spacecraft and auxiliary data.", "quantifier": "all plasmas, all earlier contents of the file", "why_tests_cant": "all file histories", "anchors": ["solarwindpy/core/plasma.py:Plasma.save", "solarwindpy/core/plasma.py:Plasma.load_from_file"]}
{"id": "C27", "title": "Loading only sees what the last save wrote", "statement": "After saving a plasma without auxiliary data into an existing file, loading does not return data of an earlier save.", "quantifier": "all histories of saves", "why_tests_cant": "histories of writes to one store", "anchors": ["solarwindpy/core/plasma.py:Plasma.save", "solarwindpy/core/plasma.py:Plasma.load_from_file"]}
{"id": "C28", "title": "Time-windowed load selects exactly the window", "statement": "load_from_file with start/stop returns exactly the rows with start<=t<=stop, in order, for data, spacecraft and aux alike.", "quantifier": "all tables and windows", "why_tests_cant": "all timestamps", "anchors": ["solarwindpy/core/plasma.py:Plasma.load_from_file"]}
{"id": "C29", "title": "Vector magnitude", "statement": "|v|^2 = vx^2+vy^2+vz^2, |v|>=0, |v|=0 iff v=0, NaN in any component gives NaN; scaling by k scales by |k|; triangle inequality.", "quantifier": "all vectors", "why_tests_cant": "all reals", "anchors": ["solarwindpy/core/vector.py:Vector.mag"]}
{"id": "C30", "title": "Projection is a Pythagorean decomposition", "statement": "project(b) gives par = v.b/|b| and per >= 0 with par^2+per^2=|v|^2 for every non-zero b; invariant under positive scaling of b.", "quantifier": "all vectors and non-zero fields", "why_tests_cant": "all reals", "anchors": ["solarwindpy/core/vector.py:Vector.project"]}
{"id": "C31", "title": "Projection on an undefined direction is undefined", "statement": "Projecting on a zero vector, or with a NaN component, yields NaN.", "quantifier": "all vectors", "why_tests_cant": "degenerate rows", "anchors": ["solarwindpy/core/vector.py:Vector.project"]}
{"id": "C32", "title": "cos_theta is a cosine", "statement": "cos_theta is in [-1,1], symmetric, 1 iff parallel.", "quantifier": "all non-zero vectors", "why_tests_cant": "all reals", "anchors": ["solarwindpy/core/vector.py:Vector.cos_theta"]}
{"id": "C33", "title": "Spherical angles", "statement": "latitude is the elevation above the x-y plane in [-90,90] and colatitude = 90 - latitude; longitude in (-180,180].", "quantifier": "all non-zero vectors", "why_tests_cant": "all reals", "anchors": ["solarwindpy/core/vector.py:Vector.colat", "solarwindpy/core/vector.py:Vector.lat", "solarwindpy/core/vector.py:Vector.lon"]}
{"id": "C34", "title": "Spacecraft configuration is validated", "statement": "Frame and name are upper-cased and accepted iff in {GSE,HCI} and {WIND,PSP}; distance2sun is the Euclidean distance to the Sun in both frames, so non-negative.", "quantifier": "all strings, all positions", "why_tests_cant": "all strings and reals", "anchors": ["solarwindpy/core/spacecraft.py:Spacecraft"]}
{"id": "C35", "title": "Object equality is an equivalence", "statement": "== between core objects (Plasma, Ion, Vector, BField, ...) is reflexive, symmetric and transitive.", "quantifier": "all pairs and triples of core objects", "why_tests_cant": "Python's reflected-operand rule makes symmetry depend on class pairs", "anchors": ["solarwindpy/core/base.py:Core.__eq__", "solarwindpy/core/ions.py:Ion.__eq__"]}
{"id": "C36", "title": "Attribute access terminates", "statement": "Looking up any attribute on a Plasma, including one produced by copy/pickle before initialisation, returns or raises AttributeError.", "quantifier": "all attribute names, all initialisation states", "why_tests_cant": "recursion through __getattr__", "anchors": ["solarwindpy/core/plasma.py:Plasma.__getattr__", "solarwindpy/core/tensor.py:Tensor.__call__", "solarwindpy/core/vector.py:Vector.__call__"]}
{"id": "C37", "title": "Elsasser energy balance", "statement": "e+ + e- = 2 (ev + eb) and e+ - e- = 4 * cross helicity in every row.", "quantifier": "all rows", "why_tests_cant": "all reals", "anchors": ["solarwindpy/core/alfvenic_turbulence.py:AlfvenicTurbulence.e_plus", "solarwindpy/core/alfvenic_turbulence.py:AlfvenicTurbulence.e_minus", "solarwindpy/core/alfvenic_turbulence.py:AlfvenicTurbulence.ev", "solarwindpy/core/alfvenic_turbulence.py:AlfvenicTurbulence.eb"]}
{"id": "C38", "title": "Normalised cross helicity and residual energy are bounded", "statement": "|sigma_c|<=1, |sigma_r|<=1, sigma_c^2+sigma_r^2<=1 whenever the total energy is positive; also in floating point for |sigma_c|.", "quantifier": "all rows", "why_tests_cant": "rounding could break the bound", "anchors": ["solarwindpy/core/alfvenic_turbulence.py:AlfvenicTurbulence.sigma_c", "solarwindpy/core/alfvenic_turbulence.py:AlfvenicTurbulence.sigma_r"]}
{"id": "C39", "title": "Elsasser and Alfven ratios match the normalised ones", "statement": "r_E = e-/e+ = (1-sigma_c)/(1+sigma_c), r_A = ev/eb = (1+sigma_r)/(1-sigma_r).", "quantifier": "all rows", "why_tests_cant": "all reals", "anchors": ["solarwindpy/core/alfvenic_turbulence.py:AlfvenicTurbulence.rE", "solarwindpy/core/alfvenic_turbulence.py:AlfvenicTurbulence.rA"]}
{"id": "C40", "title": "Warm-up rows have undefined energies", "statement": "Rows whose rolling mean is undefined report NaN energies.", "quantifier": "all data and windows", "why_tests_cant": "skipna", "anchors": ["solarwindpy/core/alfvenic_turbulence.py:AlfvenicTurbulence.ev", "solarwindpy/core/alfvenic_turbulence.py:AlfvenicTurbulence.set_data"]}
{"id": "C41", "title": "Alfven species parsing is canonical", "statement": "The species string of an AlfvenicTurbulence has at most one comma; each side is the sorted '+'-join of its names; canonicalisation is idempotent.", "quantifier": "all strings", "why_tests_cant": "all strings", "anchors": ["solarwindpy/core/alfvenic_turbulence.py:AlfvenicTurbulence._clean_species_for_setting"]}
{"id": "C42", "title": "swap_protons orders proton beams", "statement": "After swap_protons n(p2) <= n(p1) in every row, rows are only changed by exchanging p1 and p2, and applying it twice is the same as once.", "quantifier": "all tables", "why_tests_cant": "all rows; also with IEEE rounding of the ratio", "anchors": ["solarwindpy/tools/__init__.py:swap_protons"]}
{"id": "C43", "title": "Instability classification is total and exclusive", "statement": "Every row gets exactly one stability bin, consistent with the four threshold comparisons, and a row with missing data gets no bin.", "quantifier": "all rows", "why_tests_cant": "all threshold outcomes", "anchors": ["solarwindpy/instabilities/verscharen2016.py:StabilityCondition", "solarwindpy/instabilities/verscharen2016.py:StabilityCriteria"]}
{"id": "C44", "title": "Instability thresholds are monotone and separated", "statement": "Each parametrised threshold tends to isotropy with growing beta: AIC and MM are above 1 and decreasing, FMW and OFI are below 1 and increasing in beta.", "quantifier": "all beta above the pole", "why_tests_cant": "all reals", "anchors": ["solarwindpy/instabilities/beta_ani.py:BetaRPlot", "solarwindpy/instabilities/verscharen2016.py"]}
{"id": "C45", "title": "Abundance queries are keyed safely", "statement": "ReferenceAbundances accepts exactly years 2009 and 2021 (integers), an unknown element raises KeyError, and kind aliases resolve to the same column.", "quantifier": "all years, keys and kinds", "why_tests_cant": "all keys", "anchors": ["solarwindpy/core/abundances.py:ReferenceAbundances"]}
{"id": "C46", "title": "Abundance ratios are consistent", "statement": "ratio(a,b)*ratio(b,a)=1, ratio(a,b)*ratio(b,c)=ratio(a,c); the uncertainty is non-negative and missing uncertainties are treated alike for every denominator.", "quantifier": "all element pairs and all table contents", "why_tests_cant": "all tables", "anchors": ["solarwindpy/core/abundances.py:ReferenceAbundances.abundance_ratio"]}
{"id": "C47", "title": "Fit selection uses exactly the admissible observations", "statement": "The observations used in a fit are exactly the raw ones that are finite and inside the (inclusive) x, y, w limits and outside the excluded range, in order; nobs is their number.", "quantifier": "all data, all limits", "why_tests_cant": "all NaN/inf patterns and limits", "anchors": ["solarwindpy/fitfunctions/core.py:FitFunction.set_fit_obs", "solarwindpy/fitfunctions/core.py:FitFunction._build_one_obs_mask", "solarwindpy/fitfunctions/core.py:FitFunction._build_outside_mask"]}
{"id": "C48", "title": "A fit needs at least as many observations as parameters", "statement": "make_fit fails with InsufficientDataError iff the number of used observations is smaller than the number of parameters; with return_exception=True it returns the error instead of raising, for every fit function.", "quantifier": "all data, all fit functions", "why_tests_cant": "all subclasses", "anchors": ["solarwindpy/fitfunctions/core.py:FitFunction.sufficient_data", "solarwindpy/fitfunctions/core.py:FitFunction.make_fit", "solarwindpy/fitfunctions/gaussians.py"]}
{"id": "C49", "title": "Residuals and r-squared", "statement": "residuals = y - f(x), observed minus fitted, point by point; with pct they are 100*(y-f)/f, NaN where f = 0; r^2 <= 1 with equality iff all residuals vanish.", "quantifier": "all data and models", "why_tests_cant": "all reals", "anchors": ["solarwindpy/fitfunctions/core.py:FitFunction.residuals", "solarwindpy/fitfunctions/core.py:FitFunction.rsq"]}
{"id": "C50", "title": "Bounds given by name reach the right parameter", "statement": "Dictionary bounds are passed in the order of the parameters whatever the order of the dictionary; unknown names are rejected.", "quantifier": "all dictionaries", "why_tests_cant": "all permutations", "anchors": ["solarwindpy/fitfunctions/core.py:FitFunction._run_least_squares"]}
{"id": "C51", "title": "Heaviside step", "statement": "Left of x0 the step is y0+y1 and right of it y0 (as documented); at x0 it lies between the two levels.", "quantifier": "all parameters", "why_tests_cant": "all reals", "anchors": ["solarwindpy/fitfunctions/heaviside.py:HeavySide.function"]}
{"id": "C52", "title": "Piecewise composites partition the axis", "statement": "GaussianPlusHeavySide, GaussianTimesHeavySide and GaussianTimesHeavySidePlusHeavySide use exactly one branch on each side of x0, and are within the branch values at x0.", "quantifier": "all parameters and x", "why_tests_cant": "the boundary point", "anchors": ["solarwindpy/fitfunctions/composite.py"]}
{"id": "C53", "title": "Hinge fits are continuous through the hinge", "statement": "HingeSaturation, TwoLine, Saturation, HingeMin, HingeMax and HingeAtPoint pass continuously through their hinge point and equal the stated line on each side, a horizontal branch included.", "quantifier": "all parameters", "why_tests_cant": "all reals", "anchors": ["solarwindpy/fitfunctions/hinge.py"]}
{"id": "C54", "title": "Initial guesses lie on the model for exact data", "statement": "When the data lie exactly on the model, the initial guess of Line, LineXintercept and TwoLine is the true parameter vector.", "quantifier": "all lines, all x sets", "why_tests_cant": "all data", "anchors": ["solarwindpy/fitfunctions/lines.py:Line.p0", "solarwindpy/fitfunctions/lines.py:LineXintercept.p0"]}
{"id": "C55", "title": "Shape of the fitted curves", "statement": "Gaussian is symmetric about and maximal at mu; GaussianNormalized is the Gaussian of amplitude n/(sqrt(2 pi) sigma); GaussianLn peaks at exp(m); PowerLaw is multiplicative; Exponential decays to zero monotonically with half-life ln2/c; ExponentialCDF rises from 0 towards y0; Moyal peaks at mu.", "quantifier": "all parameters and x", "why_tests_cant": "all reals", "anchors": ["solarwindpy/fitfunctions/gaussians.py", "solarwindpy/fitfunctions/power_laws.py", "solarwindpy/fitfunctions/exponentials.py", "solarwindpy/fitfunctions/moyal.py"]}
{"id": "C56", "title": "Parallel and sequential trend fitting agree", "statement": "TrendFit.make_1dfits gives the same successful and bad fits whatever n_jobs.", "quantifier": "all sets of 1d fits, all n_jobs", "why_tests_cant": "schedules of a worker pool", "anchors": ["solarwindpy/fitfunctions/trend_fits.py:TrendFit.make_1dfits"]}
{"id": "C57", "title": "Bad 1d fits are separated from good ones", "statement": "After make_1dfits every 1d fit is in exactly one of ffuncs and bad_fits, and it is bad iff its fit failed.", "quantifier": "all sets of fits", "why_tests_cant": "all outcomes", "anchors": ["solarwindpy/fitfunctions/trend_fits.py:TrendFit.make_1dfits", "solarwindpy/fitfunctions/gaussians.py"]}
{"id": "C58", "title": "TeX info is always balanced math", "statement": "Every line TeXinfo produces from a math string has an even number of unescaped dollar signs; translating parameter names never changes other text.", "quantifier": "all strings", "why_tests_cant": "all strings", "anchors": ["solarwindpy/fitfunctions/tex_info.py:TeXinfo._check_and_add_math_escapes"]}
{"id": "C59", "title": "TeX info reflects the current fit", "statement": "str(TeXinfo) always shows the parameters last set.", "quantifier": "all histories of setters", "why_tests_cant": "histories of a cached value", "anchors": ["solarwindpy/fitfunctions/tex_info.py:TeXinfo.build_info"]}
{"id": "C60", "title": "Cached activity data are refreshed iff stale", "statement": "maybe_update_stale_data downloads iff the cached file is older than today, and afterwards load_data reads the newest file; two cached dates are rejected.", "quantifier": "all directory contents and clocks", "why_tests_cant": "all clock/cache states", "anchors": ["solarwindpy/solar_activity/base.py:DataLoader"]}
{"id": "C61", "title": "Interpolated activity never extrapolates", "statement": "interpolate_data returns a value for exactly the target times inside the source range, NaN outside; at source times it returns the source value.", "quantifier": "all sources and targets", "why_tests_cant": "all times", "anchors": ["solarwindpy/solar_activity/base.py:ActivityIndicator.interpolate_data"]}
{"id": "C62", "title": "Solar cycle intervals tile time", "statement": "Rise and Fall of each cycle are adjacent, together equal the Cycle, and consecutive cycles are adjacent and non-overlapping.", "quantifier": "all increasing extrema tables", "why_tests_cant": "all tables", "anchors": ["solarwindpy/solar_activity/base.py:IndicatorExtrema.calculate_intervals"]}
{"id": "C63", "title": "Epochs are assigned to the unique containing interval", "statement": "cut_spec_by_interval assigns t to an interval iff it contains t; every t inside the table is assigned exactly one Cycle and exactly one Edge; unknown kinds are rejected.", "quantifier": "all times, all tables", "why_tests_cant": "all times", "anchors": ["solarwindpy/solar_activity/base.py:IndicatorExtrema.cut_spec_by_interval"]}
{"id": "C64", "title": "Extrema bands", "statement": "A band of half-width dt around an extremum contains t iff |t - extremum| is within dt years; bands of different extrema do not overlap for default dt.", "quantifier": "all times", "why_tests_cant": "all times", "anchors": ["solarwindpy/solar_activity/base.py:IndicatorExtrema.calculate_extrema_bands", "solarwindpy/solar_activity/base.py:IndicatorExtrema.cut_about_extrema_bands"]}
{"id": "C65", "title": "Extrema calculator alternates minima and maxima", "statement": "Extrema found from threshold crossings alternate between Min and Max and are ordered in time.", "quantifier": "all series and thresholds", "why_tests_cant": "all series", "anchors": ["solarwindpy/solar_activity/lisird/extrema_calculator.py:ExtremaCalculator"]}
{"id": "C66", "title": "Normalised sunspot numbers", "statement": "Within a cycle max-normalisation is at most 1 and attains it; feature scaling lies in [0,1] and attains both; zscore has mean 0.", "quantifier": "all non-constant cycles", "why_tests_cant": "all reals", "anchors": ["solarwindpy/solar_activity/sunspot_number/sidc.py:SIDC.run_normalization"]}
{"id": "C67", "title": "Solar cycle edge assignment", "statement": "calculate_edge/extrema_kind agree with the extrema table for every time in range.", "quantifier": "all times", "why_tests_cant": "all times", "anchors": ["solarwindpy/solar_activity/sunspot_number/sidc.py:SIDC.calculate_extrema_kind"]}
{"id": "C68", "title": "ICME interval end fallback", "statement": "The interval end is mo_end_time if present, else mo_start_time+24h, else icme_start_time+24h; never before the start when the catalogue is well-formed.", "quantifier": "all catalogue rows", "why_tests_cant": "all NaT patterns", "anchors": ["solarwindpy/solar_activity/icme/icmecat.py:ICMECAT"]}
{"id": "C69", "title": "contains is interval membership", "statement": "contains(times) is true exactly at the times lying between the start and the mo_end_time of at least one ICME (boundaries included; events without mo_end_time are documented not to count), in input order.", "quantifier": "all catalogues and time lists", "why_tests_cant": "overlapping/nested intervals", "anchors": ["solarwindpy/solar_activity/icme/icmecat.py:ICMECAT.contains"]}
{"id": "C70", "title": "ICME filters", "statement": "filter by spacecraft is case-insensitive and keeps order; get_events_in_range keeps exactly the overlapping events; the cache is used iff it is at most 30 days old.", "quantifier": "all catalogues, names and clocks", "why_tests_cant": "all catalogues", "anchors": ["solarwindpy/solar_activity/icme/icmecat.py:ICMECAT.filter_by_spacecraft", "solarwindpy/solar_activity/icme/icmecat.py:ICMECAT.get_events_in_range"]}
{"id": "C71", "title": "Histogram bins partition the data", "statement": "Every finite value inside the edges lands in exactly one right-closed bin; values outside in none; counts sum to the number of binned values.", "quantifier": "all data and increasing edges", "why_tests_cant": "all data", "anchors": ["solarwindpy/plotting/agg_plot.py:AggPlot.calc_bins_intervals", "solarwindpy/plotting/agg_plot.py:AggPlot.make_cut"]}
{"id": "C72", "title": "Probability density histograms integrate to one", "statement": "With axnorm='d' the sum of density times bin width is 1 (linear and log axes, 1D and 2D); 'cd' columns and 'rd' rows integrate to 1.", "quantifier": "all non-empty histograms", "why_tests_cant": "all count vectors", "anchors": ["solarwindpy/plotting/hist1d.py:Hist1D._axis_normalizer", "solarwindpy/plotting/hist2d.py:Hist2D._axis_normalizer"]}
{"id": "C73", "title": "Row/column/total normalisation", "statement": "With 'c','r','t' every value is in [0,1] and each column/row/the whole attains 1.", "quantifier": "all positive aggregates", "why_tests_cant": "all count tables", "anchors": ["solarwindpy/plotting/hist2d.py:Hist2D._axis_normalizer"]}
{"id": "C74", "title": "Colour and count limits only mask", "statement": "set_clim/set_alim replace by NaN exactly the bins whose count/value is outside the inclusive limits and leave the others unchanged.", "quantifier": "all aggregates and limits", "why_tests_cant": "all", "anchors": ["solarwindpy/plotting/agg_plot.py:AggPlot._agg_runner", "solarwindpy/plotting/hist2d.py:Hist2D.agg"]}
{"id": "C75", "title": "Plotted-data selection returns exactly the data in plotted bins", "statement": "get_plotted_data_boolean_series and get_subset_above_threshold select a datum iff its own bin is plotted / above threshold.", "quantifier": "all data, 1D and 2D", "why_tests_cant": "2D bin combinations", "anchors": ["solarwindpy/plotting/agg_plot.py:AggPlot.get_plotted_data_boolean_series", "solarwindpy/plotting/agg_plot.py:AggPlot.get_subset_above_threshold"]}
{"id": "C76", "title": "CDF construction", "statement": "construct_cdf is sorted, its positions run from 0 to 1 non-decreasingly.", "quantifier": "all data", "why_tests_cant": "all", "anchors": ["solarwindpy/plotting/hist1d.py:Hist1D.construct_cdf"]}
{"id": "C77", "title": "Labels are ordered consistently", "statement": "For labels, ==, <, <=, >, >= are consistent with each other (a total preorder by their string).", "quantifier": "all pairs of labels", "why_tests_cant": "all strings", "anchors": ["solarwindpy/plotting/labels/base.py:Base.__gt__", "solarwindpy/plotting/labels/base.py:Base.__le__"]}
{"id": "C78", "title": "Ratio labels carry the right units", "statement": "The units of a ratio label are '#' iff both single labels have the same units, else their quotient.", "quantifier": "all (m,c,s) pairs", "why_tests_cant": "all label triples", "anchors": ["solarwindpy/plotting/labels/base.py:TeXlabel.build_label"]}
{"id": "C79", "title": "Species translation in labels is longest-match", "statement": "make_species replaces every known species name by its TeX, preferring longer names, and leaves unknown text unchanged.", "quantifier": "all strings", "why_tests_cant": "all strings", "anchors": ["solarwindpy/plotting/labels/base.py:_run_species_substitution"]}
{"id": "C80", "title": "Axis grid size fits n panels", "statement": "calculate_nrows_ncols(n) returns positive nrows, ncols with nrows*ncols in {n, n+1}, terminating for every n>=1.", "quantifier": "all n>=1", "why_tests_cant": "all n", "anchors": ["solarwindpy/plotting/tools.py:calculate_nrows_ncols"]}
{"id": "C81", "title": "Axis grid never overlaps the colour bar", "statement": "build_ax_array_with_common_colorbar places nrows*ncols axes in distinct unit-size grid cells none of which is in the colour-bar strip.", "quantifier": "all shapes and positions", "why_tests_cant": "all shapes", "anchors": ["solarwindpy/plotting/tools.py:build_ax_array_with_common_colorbar"]}
{"id": "C82", "title": "Joint legend has each label once", "statement": "joint_legend shows each distinct label once, sorted, attached to the first handle that carried it.", "quantifier": "all axes contents", "why_tests_cant": "all", "anchors": ["solarwindpy/plotting/tools.py:joint_legend"]}
{"id": "C83", "title": "NaN-aware smoothing", "statement": "nan_gaussian_filter keeps NaN exactly where the input was NaN, every other output is within the range of the valid inputs, and constants are preserved.", "quantifier": "all arrays and kernels", "why_tests_cant": "all NaN patterns", "anchors": ["solarwindpy/plotting/tools.py:nan_gaussian_filter"]}
{"id": "C84", "title": "Spiral mesh partitions the plane region", "statement": "The final mesh cells are pairwise disjoint and cover the initial region, so each datum in it is in exactly one cell and the bin assignment is independent of the order in which cells are processed.", "quantifier": "all data, edges, thresholds, all processing orders", "why_tests_cant": "parallel loop schedules", "anchors": ["solarwindpy/plotting/spiral.py:SpiralMesh.generate_mesh", "solarwindpy/plotting/spiral.py:calculate_bin_number_with_numba"]}
{"id": "C85", "title": "Spiral mesh cells respect the threshold", "statement": "When generate_mesh returns, no cell holds more than min_per_bin data.", "quantifier": "all data", "why_tests_cant": "all data", "anchors": ["solarwindpy/plotting/spiral.py:SpiralMesh.generate_mesh"]}
{"id": "C86", "title": "Spiral mesh generation terminates", "statement": "generate_mesh terminates for all data.", "quantifier": "all data", "why_tests_cant": "non-termination cannot be tested", "anchors": ["solarwindpy/plotting/spiral.py:SpiralMesh.generate_mesh"]}
{"id": "C87", "title": "Default spiral edges cover all finite data", "statement": "With an integer number of initial bins every finite datum lies in the half-open region of the mesh.", "quantifier": "all data", "why_tests_cant": "all data", "anchors": ["solarwindpy/plotting/spiral.py:SpiralPlot2D.calc_initial_bins"]}
{"id": "C88", "title": "Kinetic energy flux is defined", "statement": "kinetic_energy_flux(species) returns 0.5*rho*v^3 per species and their sum for a total, for every legal species request.", "quantifier": "all plasmas and species requests", "why_tests_cant": "all plasmas", "anchors": ["solarwindpy/core/plasma.py:Plasma.kinetic_energy_flux", "solarwindpy/core/ions.py:Ion.kinetic_energy_flux", "solarwindpy/core/units_constants.py:Units"]}
{"id": "C89", "title": "A crash during save never mixes two saves", "statement": "If the process dies during save, loading the file afterwards gives the old state, the new state or an error, never a mixture.", "quantifier": "all plasmas, all earlier file contents, all crash points between writes", "why_tests_cant": "needs every crash point", "anchors": ["solarwindpy/core/plasma.py:Plasma.save", "solarwindpy/core/plasma.py:Plasma.load_from_file"]}
{"id": "C90", "title": "Calling a vector or tensor returns the component", "statement": "v('x') on a Vector (and t('par') on a Tensor) returns the column of that name, for every vector and component.", "quantifier": "all vectors and component names", "why_tests_cant": "all inputs", "anchors": ["solarwindpy/core/vector.py:Vector.__call__", "solarwindpy/core/tensor.py:Tensor.__call__"]}
{"id": "C91", "title": "Rectifying by polarity keeps energies", "statement": "Multiplying the field fluctuation by the polarity changes none of ev, eb, etot, eres, sigma_r and flips only the sign of the cross helicity; polarity -1 exchanges the two Elsasser populations.", "quantifier": "all finite rows and polarities the code can compute", "why_tests_cant": "all rows", "anchors": ["solarwindpy/core/alfvenic_turbulence.py:AlfvenicTurbulence.bfield", "solarwindpy/core/alfvenic_turbulence.py:AlfvenicTurbulence.set_data"]}
{"id": "C92", "title": "Fluctuations are Galilean invariant", "statement": "Each fluctuation is the value minus the mean of the present values in its trailing window (missing if fewer than min_periods); adding a constant to a column changes no fluctuation and constant data has none.", "quantifier": "all columns with any missing values, all windows, all min_periods", "why_tests_cant": "all data", "anchors": ["solarwindpy/core/alfvenic_turbulence.py:AlfvenicTurbulence.set_data"]}
{"id": "C93", "title": "Log-normal parameters", "statement": "normal_parameters(m, s) returns exp(m+s^2/2) and a non-negative standard deviation with sigma^2 = mu^2 (exp(s^2)-1), zero iff s=0.", "quantifier": "all real m, s", "why_tests_cant": "all reals", "anchors": ["solarwindpy/tools/__init__.py:normal_parameters"]}
{"id": "C94", "title": "Threshold plot legend", "statement": "Each row of the table legend of the instability thresholds pairs the marker of an instability with its own name.", "quantifier": "all rows of the legend", "why_tests_cant": "the plotted legend is not checked by tests", "anchors": ["solarwindpy/instabilities/verscharen2016.py:StabilityContours._add_table_legend"]}
{"id": "C95", "title": "Abundance comments", "statement": "get_comment returns only non-empty text from the element's own row, and None otherwise; for the shipped tables it never raises on a symbol or atomic number.", "quantifier": "all keys, all keyed tables", "why_tests_cant": "all keys", "anchors": ["solarwindpy/core/abundances.py:ReferenceAbundances.get_comment"]}
{"id": "C96", "title": "Fitted parameters come from a successful fit", "statement": "Over every history of fits and replaced observations, popt is absent or is what the optimiser returned for observations the object had, named in the order of the parameters; a failed fit leaves no parameters that do not describe the current observations.", "quantifier": "all histories of make_fit and set_fit_obs, all optimiser outcomes", "why_tests_cant": "histories with failures", "anchors": ["solarwindpy/fitfunctions/core.py:FitFunction.make_fit", "solarwindpy/fitfunctions/core.py:FitFunction.set_fit_obs", "solarwindpy/fitfunctions/core.py:FitFunction.popt"]}
{"id": "C97", "title": "Chi-squared per degree of freedom", "statement": "The unweighted chi^2 per degree of freedom is the sum of squared residuals over (number of observations - number of parameters), non-negative, and infinite exactly when they are equal in number.", "quantifier": "all data and models with at least as many observations as parameters", "why_tests_cant": "all reals", "anchors": ["solarwindpy/fitfunctions/core.py:FitFunction._calc_popt_pcov_psigma_chisq"]}
{"id": "C98", "title": "Step guess", "statement": "For data exactly on a step at the given x0, HeavySide's initial guess is the true step; a level the user supplies is the one used.", "quantifier": "all steps, all data with points on both sides", "why_tests_cant": "all data", "anchors": ["solarwindpy/fitfunctions/heaviside.py:HeavySide.p0"]}
{"id": "C99", "title": "Moment guess of peaked functions", "statement": "For non-negative data the guess of Gaussian and Moyal is the centre of mass (within the range of x), the rms distance from it, and the largest value; shifting the data in x shifts the centre alone.", "quantifier": "all non-negative data, all shifts", "why_tests_cant": "all data", "anchors": ["solarwindpy/fitfunctions/gaussians.py:Gaussian.p0", "solarwindpy/fitfunctions/moyal.py:Moyal.p0"]}
{"id": "C100", "title": "One bent line, five parametrizations", "statement": "TwoLine, Saturation, HingeMin, HingeAtPoint and HingeSaturation give the same curve when each is given the quantities (xs, s, theta, m2) another reports; the reported angles agree.", "quantifier": "all slopes, intercepts and x", "why_tests_cant": "all reals", "anchors": ["solarwindpy/fitfunctions/hinge.py:TwoLine", "solarwindpy/fitfunctions/hinge.py:Saturation", "solarwindpy/fitfunctions/hinge.py:HingeMin", "solarwindpy/fitfunctions/hinge.py:HingeAtPoint", "solarwindpy/fitfunctions/hinge.py:HingeSaturation"]}
{"id": "C101", "title": "The reported formula is the fitted function", "statement": "The formula TeX_function reports, read as mathematics with its names standing for the parameters and x, gives exactly the values of the function that is fitted, wherever the formula is defined.", "quantifier": "all parameters and x, every class", "why_tests_cant": "text against code, all reals", "anchors": ["solarwindpy/fitfunctions/gaussians.py", "solarwindpy/fitfunctions/moyal.py", "solarwindpy/fitfunctions/lines.py", "solarwindpy/fitfunctions/power_laws.py", "solarwindpy/fitfunctions/exponentials.py"]}
{"id": "C102", "title": "Moyal fits asymmetric peaks", "statement": "The Moyal function is asymmetric about its centre, as documented.", "quantifier": "all parameters", "why_tests_cant": "all reals", "anchors": ["solarwindpy/fitfunctions/moyal.py:Moyal.function"]}
{"id": "C103", "title": "The initial guess is usable", "statement": "At the initial guess the model function is finite at the observations, so that the optimiser can start.", "quantifier": "all data, all hinge guesses", "why_tests_cant": "all data", "anchors": ["solarwindpy/fitfunctions/hinge.py:HingeMin.p0", "solarwindpy/fitfunctions/hinge.py:HingeAtPoint.p0"]}
{"id": "C104", "title": "Trend observations", "statement": "A TrendFit's trend function is fitted to one observation per good 1d fit, in order: at the column's abscissa (10**x if trend_logx), with the chosen fitted parameter as value and the chosen fitted parameter as weight.", "quantifier": "all collections of 1d fits", "why_tests_cant": "all collections", "anchors": ["solarwindpy/fitfunctions/trend_fits.py:TrendFit.make_trend_func", "solarwindpy/fitfunctions/trend_fits.py:TrendFit.popt_1d"]}
{"id": "C105", "title": "Printed precision", "statement": "A fitted value is printed with its last digit at the leading digit of its uncertainty.", "quantifier": "all values and uncertainties", "why_tests_cant": "all reals", "anchors": ["solarwindpy/fitfunctions/tex_info.py:TeXinfo.val_uncert_2_string"]}
{"id": "C106", "title": "Annotation arguments are left alone", "statement": "build_info changes none of its arguments.", "quantifier": "all additional texts", "why_tests_cant": "aliasing", "anchors": ["solarwindpy/fitfunctions/tex_info.py:TeXinfo._add_additional_info"]}
{"id": "C107", "title": "TeX names are accepted exactly for parameters", "statement": "set_TeX_argnames accepts a translation iff each translated name is a parameter.", "quantifier": "all translations, all parameter names, all histories of translations", "why_tests_cant": "all strings", "anchors": ["solarwindpy/fitfunctions/tex_info.py:TeXinfo.set_TeX_argnames"]}
{"id": "C108", "title": "Bands of sunspot number", "statement": "cut_spec_by_ssn_band gives each value the band whose midpoint is within dssn of it, and every value up to the maximum has a band.", "quantifier": "all sunspot numbers and band widths", "why_tests_cant": "all reals", "anchors": ["solarwindpy/solar_activity/sunspot_number/sidc.py:SIDC.cut_spec_by_ssn_band"]}
{"id": "C109", "title": "A crash during a refresh does not destroy the cache", "statement": "If the process dies at any point of a refresh of cached data, a later use on that or a later day succeeds with complete data.", "quantifier": "all crash points, both sources, all later histories", "why_tests_cant": "crash points", "anchors": ["solarwindpy/solar_activity/base.py:DataLoader.maybe_update_stale_data", "solarwindpy/solar_activity/sunspot_number/sidc.py:SIDCLoader.download_data", "solarwindpy/solar_activity/lisird/lisird.py:LISIRDLoader.download_data"]}
{"id": "C111", "title": "ICME summary", "statement": "summary reports the number of events, a date range that contains every interval with both ends attained, and the shortest and longest duration, both attained.", "quantifier": "all catalogues", "why_tests_cant": "all catalogues", "anchors": ["solarwindpy/solar_activity/icme/icmecat.py:ICMECAT.summary"]}
{"id": "C112", "title": "Threshold of the extrema calculator", "statement": "A threshold given as number or function is the one used; without one, a listed value or the median of the data is used.", "quantifier": "all series, names and thresholds", "why_tests_cant": "all series", "anchors": ["solarwindpy/solar_activity/lisird/extrema_calculator.py:ExtremaCalculator.set_threshold"]}
{"id": "C116", "title": "Label save paths are safe", "statement": "Whatever strings name the measurement, component and species, the path of a TeXlabel (single or ratio) is at most one directory entry free of separators, dots and commas, plus the normalisation directory.", "quantifier": "all strings, ratios and normalisations", "why_tests_cant": "all strings", "anchors": ["solarwindpy/plotting/labels/base.py:TeXlabel._build_one_label", "solarwindpy/plotting/labels/base.py:TeXlabel.build_label"]}
{"id": "C117", "title": "Different comparisons get different file names", "statement": "Probability and CountOther labels that differ in their comparison (less than / greater than) have different save paths.", "quantifier": "all labels and comparisons", "why_tests_cant": "all strings", "anchors": ["solarwindpy/plotting/labels/special.py:Probability._build_path", "solarwindpy/plotting/labels/special.py:CountOther._build_path"]}
{"id": "C118", "title": "Combined labels have consistent units", "statement": "ComparisonLable accepts two labels with units only if the units agree and shows those; AbsoluteValue keeps units; MathFcn drops or wraps them; thin spaces are never doubled.", "quantifier": "all labels", "why_tests_cant": "all labels and strings", "anchors": ["solarwindpy/plotting/labels/special.py:ComparisonLable.set_constituents", "solarwindpy/plotting/labels/special.py:AbsoluteValue", "solarwindpy/plotting/labels/special.py:MathFcn"]}
{"id": "C119", "title": "Normalised labels are dimensionless", "statement": "With a valid axnorm a TeXlabel or Count label has units '#' and its own normalisation directory; any other axnorm raises AssertionError.", "quantifier": "all labels and axnorm strings", "why_tests_cant": "all strings", "anchors": ["solarwindpy/plotting/labels/base.py:TeXlabel.set_axnorm", "solarwindpy/plotting/labels/special.py:Count.set_axnorm"]}
{"id": "C120", "title": "Uncertainty labels match their quantity", "statement": "The label of measurement m+'_err' has the units of m and the TeX sigma(...) of m's TeX.", "quantifier": "all measurements, components and species", "why_tests_cant": "all strings", "anchors": ["solarwindpy/plotting/labels/base.py:TeXlabel._build_one_label"]}
{"id": "C113", "title": "Specific entropy", "statement": "specific_entropy is p rho^(-5/3) in SI over its unit, for the total of several species and for each species' column.", "quantifier": "all species selections, densities and thermal speeds", "why_tests_cant": "all reals", "anchors": ["solarwindpy/core/plasma.py:Plasma.specific_entropy"]}
{"id": "C114", "title": "Heat flux", "statement": "heat_flux is the sum over the species of rho (v^3 + 3/2 v w^2) with v the species' velocity along B relative to the centre of mass and w its parallel thermal speed; it changes sign with B; fewer than two species is a ValueError.", "quantifier": "all species sets, velocities, thermal speeds and non-zero fields", "why_tests_cant": "all reals, any number of species", "anchors": ["solarwindpy/core/plasma.py:Plasma.heat_flux"]}
{"id": "C115", "title": "VDF ratio", "statement": "vdf_ratio returns ln of the ratio of the two bi-Maxwellians at the beam velocity, with velocities projected by sqrt(m/(m_p z)); totals and a species with itself are rejected.", "quantifier": "all pairs of species, densities, speeds and fields", "why_tests_cant": "all reals", "anchors": ["solarwindpy/core/plasma.py:Plasma.vdf_ratio"]}
{"id": "C121", "title": "Coulomb number", "statement": "nc is the collision frequency times distance-to-Sun over the speed of the whole plasma; without spacecraft or with a total it is a ValueError.", "quantifier": "all species pairs, spacecraft positions and velocities", "why_tests_cant": "all reals", "anchors": ["solarwindpy/core/plasma.py:Plasma.nc"]}
{"id": "C122", "title": "What turbulence is built from", "statement": "build_alfvenic_turbulence('A') uses the centre-of-mass velocity and total mass density of A; ('A,B') uses the velocity of A relative to B and the mass density of B; the same species on both sides or two commas are rejected.", "quantifier": "all lists of species names on either side, any order", "why_tests_cant": "all strings and species sets", "anchors": ["solarwindpy/core/plasma.py:Plasma.build_alfvenic_turbulence"]}
{"id": "C123", "title": "Automatic bins hold all the data", "statement": "With an integer number of bins, every finite value of the binned column falls in some bin (the bins run from the smallest to the largest value).", "quantifier": "all finite data with at least two different values, all numbers of bins", "why_tests_cant": "For every data set; the loss depends on how the smallest value rounds to the edge precision and on which side the bins are closed.", "anchors": ["solarwindpy/plotting/agg_plot.py:calc_bins_intervals", "solarwindpy/plotting/agg_plot.py:make_cut"]}
{"id": "C124", "title": "Selecting data in boxes returns exactly those data", "statement": "take_data_in_yrange_across_x returns, in increasing order, exactly the index labels of the data in some box (x bin and y range, open below, closed above), each once when the boxes do not overlap.", "quantifier": "all data and boxes", "why_tests_cant": "For all data and all sets of boxes, including shared edges.", "anchors": ["solarwindpy/plotting/hist1d.py:take_data_in_yrange_across_x", "solarwindpy/plotting/hist2d.py:take_data_in_yrange_across_x"]}
{"id": "C125", "title": "Histogram borders", "statement": "get_border returns for each column that shows anything its topmost (bottommost) shown bin with its value, one entry per column, and nothing for the others.", "quantifier": "all aggregates", "why_tests_cant": "For every pattern of empty and masked bins.", "anchors": ["solarwindpy/plotting/hist2d.py:get_border"]}
{"id": "C126", "title": "Projecting 2D counts gives the column sums", "statement": "project_1d with project_counts on the plotted data gives in each bin the sum of the 2D counts shown in that column.", "quantifier": "all data, with and without limits", "why_tests_cant": "For all data and limits.", "anchors": ["solarwindpy/plotting/hist2d.py:project_1d", "solarwindpy/plotting/agg_plot.py:get_plotted_data_boolean_series"]}
{"id": "C127", "title": "Data outside the spiral mesh are left out", "statement": "A datum outside the mesh rectangle (including infinite coordinates, as log10 of 0 gives) gets no cell and is ignored by the aggregate; data inside are all placed.", "quantifier": "all data, edges, thresholds and write orders", "why_tests_cant": "For every data set and every schedule of the parallel loop.", "anchors": ["solarwindpy/plotting/spiral.py:SpiralMesh.build_cat", "solarwindpy/plotting/spiral.py:calculate_bin_number_with_numba"]}
{"id": "C128", "title": "Spiral cells show the aggregate of their own data", "statement": "Each mesh cell shows the aggregate of exactly the z-values whose points lie in it, NaN if it is empty, filtered out or its count is outside the limits; the counts of all cells add up to the number of rows.", "quantifier": "all data, meshes, aggregations, limits and filters", "why_tests_cant": "For all data and all mesh refinements.", "anchors": ["solarwindpy/plotting/spiral.py:SpiralPlot2D.agg", "solarwindpy/plotting/spiral.py:SpiralPlot2D.build_grouped"]}
{"id": "C129", "title": "Explicit spiral edges are used as given", "statement": "Bin edges passed as an array are the edges of the initial mesh, and the caller's array is not modified.", "quantifier": "all edge arrays", "why_tests_cant": "For every array and every number of plots built from it.", "anchors": ["solarwindpy/plotting/spiral.py:SpiralPlot2D.calc_initial_bins"]}
{"id": "C130", "title": "The spiral cell filter", "statement": "cell_filter keeps a cell exactly when its area is strictly below the requested quantile of all areas and its density strictly above the requested quantile of all densities; a threshold that is off keeps everything; a size quantile q keeps at most q(N-1)+1 of N cells.", "quantifier": "all meshes, data and thresholds", "why_tests_cant": "For all meshes, in particular ties between equal cells.", "anchors": ["solarwindpy/plotting/spiral.py:SpiralMesh.cell_filter"]}
{"id": "C131", "title": "Alfvenic quantities keep their signs and bounds in double precision", "statement": "Computed in IEEE double precision, the Elsasser, kinetic and magnetic energies are never negative and never NaN; the normalised cross helicity and residual energy are NaN or lie in [-1, 1]; E+ + E- equals twice the total energy exactly.", "quantifier": "all velocity and field rows, including NaN, infinities, underflow and overflow", "why_tests_cant": "Rounding errors at every magnitude; no finite set of inputs covers the 2^384 rows.", "anchors": ["solarwindpy/core/alfvenic_turbulence.py:AlfvenicTurbulence.sigma_c", "solarwindpy/core/alfvenic_turbulence.py:AlfvenicTurbulence.sigma_r", "solarwindpy/core/alfvenic_turbulence.py:AlfvenicTurbulence.e_plus", "solarwindpy/core/alfvenic_turbulence.py:AlfvenicTurbulence.eres"]}
{"id": "C132", "title": "Swapping the proton beams is exact in double precision", "statement": "swap_protons exchanges a row with positive densities exactly when n(p2) > n(p1), and afterwards n(p1) >= n(p2), although the test is made on a rounded quotient.", "quantifier": "all pairs of positive finite doubles, including subnormal ones and quotients that overflow", "why_tests_cant": "Adjacent doubles at every exponent have to be distinguished by the quotient.", "anchors": ["solarwindpy/tools/__init__.py:swap_protons"]}
{"id": "C133", "title": "Total densities in double precision", "statement": "The total density over any species is not negative and not smaller than any component that is not NaN; NaN components are skipped, or make the total NaN when skipping is off.", "quantifier": "all species lists and double-precision rows with densities that are NaN or not negative", "why_tests_cant": "Holds for every rounding of every partial sum and for any number of species.", "anchors": ["solarwindpy/core/plasma.py:Plasma.number_density"]}
{"id": "C134", "title": "Two-species quantities keep their symmetry in double precision", "statement": "lnlambda(a, b) and lnlambda(b, a) are the same doubles bit for bit; dv(a, b) and dv(b, a) are opposite in every component.", "quantifier": "all species pairs, constants, data and logarithm routines", "why_tests_cant": "Floating-point addition is not associative: symmetry under rounding depends on the exact expression tree, for all data.", "anchors": ["solarwindpy/core/plasma.py:Plasma.lnlambda", "solarwindpy/core/plasma.py:Plasma.dv"]}
{"id": "C135", "title": "The cosine between vectors is at most one", "statement": "cos_theta of a vector with itself, in double precision, does not exceed 1, so that its arc cosine is defined.", "quantifier": "all vectors", "why_tests_cant": "For all vectors and roundings.", "anchors": ["solarwindpy/core/vector.py:Vector.cos_theta"]}
{"id": "C136", "title": "Vector data are validated", "statement": "A Vector is accepted exactly if it has at least one row and columns x, y and z; anything else raises ValueError.", "quantifier": "all column lists and numbers of rows", "why_tests_cant": "All combinations of column names.", "anchors": ["solarwindpy/core/vector.py:Vector.set_data"]}
{"id": "C137", "title": "An AlfvenicTurbulence object holds the fluctuations of its inputs", "statement": "Given a time index in order and positive densities, each row holds, for each component, the velocity minus its window mean and the field in Alfven units b/sqrt(rho) minus its window mean (missing where there are too few measurements); other indices are refused with TypeError, times out of order with ValueError.", "quantifier": "all tables, windows, missing-data patterns", "why_tests_cant": "Windows depend on all earlier rows; for every table length and pattern of missing values.", "anchors": ["solarwindpy/core/alfvenic_turbulence.py:AlfvenicTurbulence.set_data", "solarwindpy/core/alfvenic_turbulence.py:AlfvenicTurbulence.data"]}
{"id": "C138", "title": "The polarised version uses the corotating frame", "statement": "With raffaella_version the axes are turned to RTN, the tangential velocity is reduced by omega times the distance from the solar rotation axis, the polarity is the sign of v_R b_R + v_T b_T of the measurements, and the fluctuations are those of the turned data; without a spacecraft it is a ValueError.", "quantifier": "all tables and spacecraft positions in both frames", "why_tests_cant": "For all positions, frames and data.", "anchors": ["solarwindpy/core/alfvenic_turbulence.py:AlfvenicTurbulence.set_data", "solarwindpy/core/alfvenic_turbulence.py:AlfvenicTurbulence.polarity", "solarwindpy/core/spacecraft.py:Spacecraft.distance2sun"]}
{"id": "C139", "title": "The plotted residuals are the residuals of the fit", "statement": "The residuals shown in a fit plot equal FitFunction.residuals: at every used point, what the fit leaves of the observation, also as a percentage of the fitted value.", "quantifier": "all observations, limits, fitted curves with the fit non-zero at the point", "why_tests_cant": "For every data set, selection and curve.", "anchors": ["solarwindpy/fitfunctions/plots.py:FFPlot.residuals", "solarwindpy/fitfunctions/core.py:FitFunction.residuals"]}
{"id": "C140", "title": "The path of a fit plot identifies the plot", "statement": "Fit plots that differ in function, labels or scales are saved under different paths; set_log and set_labels change what is named and nothing else, unknown names are refused.", "quantifier": "all functions, labels and scales", "why_tests_cant": "All pairs of labels and scales.", "anchors": ["solarwindpy/fitfunctions/plots.py:FFPlot.path", "solarwindpy/fitfunctions/plots.py:FFPlot.set_log", "solarwindpy/fitfunctions/plots.py:FFPlot.set_labels"]}
{"id": "C141", "title": "A fit plot marks a readable number of points", "statement": "With fewer than ten used points every one is marked; otherwise every m-th is, m a power of ten, so that the plot shows between 10 and 99 marks.", "quantifier": "all numbers of used points", "why_tests_cant": "All sizes, including powers of ten.", "anchors": ["solarwindpy/fitfunctions/plots.py:FFPlot._estimate_markevery"]}
{"id": "C142", "title": "plot_residuals draws the curves that were asked for", "statement": "kind 'simple' and 'robust' draw that curve, 'both' draws both when there is a fit result; any other kind is refused.", "quantifier": "all fits and kinds", "why_tests_cant": "All kinds and fit outcomes.", "anchors": ["solarwindpy/fitfunctions/plots.py:FFPlot.plot_residuals"]}
{"id": "C143", "title": "Keyword dictionaries survive a call", "statement": "Plotting twice with the same resid_kwargs dictionary gives the same plot twice.", "quantifier": "all dictionaries", "why_tests_cant": "A history of two calls.", "anchors": ["solarwindpy/fitfunctions/plots.py:FFPlot.plot_raw_used_fit_resid"]}
{"id": "C144", "title": "Residual labels keep the caller's label", "statement": "The legend entry of a residual curve is the caller's label followed by the kind of residual, whichever kinds are plotted.", "quantifier": "all label texts", "why_tests_cant": "All texts, including TeX commands.", "anchors": ["solarwindpy/fitfunctions/plots.py:FFPlot.plot_residuals"]}
{"id": "C145", "title": "Error windows are centred on the data", "statement": "The shaded window of plot_raw and plot_used runs at each point from the observation minus its weight to the observation plus its weight.", "quantifier": "all observations", "why_tests_cant": "All data.", "anchors": ["solarwindpy/fitfunctions/plots.py:FFPlot.plot_raw", "solarwindpy/fitfunctions/plots.py:FFPlot.plot_used"]}
{"id": "C146", "title": "The save path says what was plotted", "statement": "The path of a plot names its class, its labels and the scales of its axes, at all times: after set_labels, after set_log and when the path is set by hand.", "quantifier": "all histories of set_labels, set_log and set_path", "why_tests_cant": "All orders of calls.", "anchors": ["solarwindpy/plotting/base.py:Base.set_path", "solarwindpy/plotting/base.py:Base.set_log", "solarwindpy/plotting/base.py:Base.set_labels", "solarwindpy/plotting/base.py:PlotWithZdata.set_path"]}
{"id": "C147", "title": "Exactly the complete rows are plotted", "statement": "A plot with z data keeps, in order, the rows in which none of x, y and z is missing; without any such row it is refused with ValueError; without z every row counts one.", "quantifier": "all columns and patterns of missing values", "why_tests_cant": "All patterns of missing values.", "anchors": ["solarwindpy/plotting/base.py:PlotWithZdata.set_data"]}
{"id": "C148", "title": "Axis limits fit the data", "statement": "The data limits passed to the axes are the smallest box containing all plotted points.", "quantifier": "all non-empty point sets", "why_tests_cant": "All data.", "anchors": ["solarwindpy/plotting/base.py:DataLimFormatter._format_axis", "solarwindpy/plotting/scatter.py:Scatter._format_axis"]}
{"id": "C149", "title": "Each plot has its own colour bar", "statement": "The colour bar goes where cbar_kwargs says, else next to the axes plotted on; giving both ax and cax is a ValueError; the caller's dictionary is left alone.", "quantifier": "all axes and keyword dictionaries, reused for several plots", "why_tests_cant": "Histories of plots sharing a dictionary.", "anchors": ["solarwindpy/plotting/base.py:CbarMaker._make_cbar", "solarwindpy/plotting/scatter.py:Scatter.make_plot"]}
{"id": "C150", "title": "Scatter plots draw all the data", "statement": "A scatter plot draws every complete row, coloured by z (with a colour bar when asked for) iff z takes at least two values, with clip_data or without.", "quantifier": "all data", "why_tests_cant": "All data and both clipping options.", "anchors": ["solarwindpy/plotting/scatter.py:Scatter.make_plot"]}
{"id": "C151", "title": "Transposing a plot transposes labels and scales together", "statement": "With transpose_axes the x label and scale are those of y and conversely.", "quantifier": "all plot states", "why_tests_cant": "All combinations of labels and scales.", "anchors": ["solarwindpy/plotting/base.py:Base._add_axis_labels", "solarwindpy/plotting/base.py:Base._set_axis_scale"]}
{"id": "C152", "title": "Indicator plots cover the plasma data", "statement": "The plotted solar-activity data are exactly those not before the earliest plasma epoch (all of them without plasma data); an indicator plot can be built for every indicator.", "quantifier": "all epochs and indicators", "why_tests_cant": "All time ranges.", "anchors": ["solarwindpy/solar_activity/plots.py:IndicatorPlot.plot_data", "solarwindpy/solar_activity/plots.py:IndicatorPlot.__init__"]}
{"id": "C153", "title": "Data sampled from a figure lie in the drawn boxes", "statement": "sample_data takes from each drawn box data that lie in it as shown on the axes (linear or logarithmic): n of them if it holds that many, at least one if it holds any, and reports exactly the boxes without data as failed; labels come out in increasing order.", "quantifier": "all data, boxes, axis scales and outcomes of the random choice", "why_tests_cant": "All random outcomes.", "anchors": ["solarwindpy/plotting/select_data_from_figure.py:SelectFromPlot2D.sample_data", "solarwindpy/plotting/select_data_from_figure.py:SelectFromPlot2D.failed_samples"]}
{"id": "C154", "title": "Data selected elsewhere are not selected again", "statement": "Data already selected in other figures are not sampled.", "quantifier": "all data, earlier selections and random outcomes", "why_tests_cant": "All histories of selections.", "anchors": ["solarwindpy/plotting/select_data_from_figure.py:SelectFromPlot2D.sample_data"]}
{"id": "C155", "title": "Each datum is sampled once", "statement": "No label occurs twice among the sampled indices.", "quantifier": "all data, boxes and random outcomes", "why_tests_cant": "All overlaps of boxes.", "anchors": ["solarwindpy/plotting/select_data_from_figure.py:SelectFromPlot2D.sample_data", "solarwindpy/plotting/select_data_from_figure.py:SelectFromPlot2D.sampled_indices"]}
{"id": "C156", "title": "Orbit legs partition the data by time", "statement": "OrbitPlot labels a datum Inbound exactly when its time lies in the earlier orbit interval, Outbound exactly when in the next one (whatever order the intervals were given in), and leaves others unlabelled; non-intervals, overlapping intervals and fewer than two intervals are refused.", "quantifier": "all interval indexes, closedness and times", "why_tests_cant": "All intervals and times.", "anchors": ["solarwindpy/plotting/orbits.py:OrbitPlot.set_orbit", "solarwindpy/plotting/orbits.py:OrbitPlot.make_cut"]}
{"id": "C157", "title": "Orbit histograms count each leg", "statement": "OrbitHist1D and OrbitHist2D aggregate to the number of data in each bin and leg; the legs sum to the plain histogram when all data belong to a leg; 1D densities are available too.", "quantifier": "all data, edges and leg labels", "why_tests_cant": "All data.", "anchors": ["solarwindpy/plotting/orbits.py:OrbitHist1D.agg", "solarwindpy/plotting/orbits.py:OrbitHist2D.agg"]}
{"id": "C158", "title": "Normalised orbit histograms", "statement": "Each leg of a normalised OrbitHist2D is normalised on its own: fractions of the largest bin of the column, row or leg, or densities: fraction of the leg's data in the bin over the bin's size.", "quantifier": "all data, edges, norms and legs", "why_tests_cant": "All data.", "anchors": ["solarwindpy/plotting/orbits.py:OrbitHist2D.agg"]}
{"id": "C159", "title": "Every documented orbit plot can be drawn", "statement": "make_one_plot draws the leg named by the first letter of kind (either case), Inbound, Outbound or Both, with a colour bar by default; make_in_out_plot and make_in_out_both_plot join the legs on mirrored axes that cover both ranges; limit_color_norm works for every norm; other kinds are refused.", "quantifier": "all kinds, norms and flags", "why_tests_cant": "All kind strings.", "anchors": ["solarwindpy/plotting/orbits.py:OrbitHist2D.make_one_plot", "solarwindpy/plotting/orbits.py:OrbitHist2D.make_in_out_plot", "solarwindpy/plotting/orbits.py:OrbitHist2D.make_in_out_both_plot", "solarwindpy/plotting/orbits.py:OrbitHist2D._put_agg_on_ax"]}
{"id": "C160", "title": "Clipping only moves extreme values", "statement": "With clip_data every value outside the 0.01% and 99.99% quantiles is moved to the nearer of the two, all others and missing values are unchanged, and at most a ten-thousandth of the data changes on each side; clip_data='l' and 'u' clip one side only; without clip_data nothing changes.", "quantifier": "all data and clip_data arguments", "why_tests_cant": "Quantile positions depend on the length and order of all the data.", "anchors": ["solarwindpy/plotting/agg_plot.py:AggPlot.clip_data", "solarwindpy/plotting/agg_plot.py:AggPlot.make_cut", "solarwindpy/plotting/hist1d.py:Hist1D.set_data", "solarwindpy/plotting/hist2d.py:Hist2D.set_data"]}
{"id": "C161", "title": "Colour limits cover the data", "statement": "With limit_color_norm the colours run between the 1% and 99% quantiles of the z values unless the norm has limits already; fractions of columns and rows are coloured from 0 to 1; it can be used with every normalization.", "quantifier": "all data, normalizations and given norms", "why_tests_cant": "All data and norms.", "anchors": ["solarwindpy/plotting/hist2d.py:Hist2D._limit_color_norm", "solarwindpy/plotting/hist2d.py:Hist2D.make_plot"]}
{"id": "C162", "title": "id_data_above_contour labels the data above the contour", "statement": "Each datum in a bin at or above the level is labelled with its column, every other datum is not labelled.", "quantifier": "all data, edges, normalizations and levels", "why_tests_cant": "All histograms and levels.", "anchors": ["solarwindpy/plotting/hist2d.py:Hist2D.id_data_above_contour"]}
{"id": "C163", "title": "Borders are drawn where they are", "statement": "plot_edges draws the upper and lower border through the middles of the border bins, on the scale of the axes, within the given limits; smoothing uses the window and order given for both borders, by default an odd window of a tenth of the points.", "quantifier": "all histograms, limits and smoothing arguments", "why_tests_cant": "All numbers of columns and arguments.", "anchors": ["solarwindpy/plotting/hist2d.py:Hist2D.plot_edges", "solarwindpy/plotting/hist2d.py:Hist2D._plot_one_edge"]}
{"id": "C164", "title": "Means per bin and projections", "statement": "A histogram of y over x shows in each bin the mean of the y that are not missing there; project_1d of unweighted data shows, for each column (row), the mean of the other coordinate over the rows the plot can show, on the scale of the data.", "quantifier": "all data, edges and scales", "why_tests_cant": "All data.", "anchors": ["solarwindpy/plotting/agg_plot.py:AggPlot._agg_runner", "solarwindpy/plotting/hist1d.py:Hist1D.agg", "solarwindpy/plotting/hist2d.py:Hist2D.project_1d"]}
{"id": "C165", "title": "Contour levels suit the normalization", "statement": "Given levels are used as they are; default levels increase, fractions of columns and rows have the tenths from 0 to 1, fractions of the total lie in [0, 1]; every normalization has defaults or leaves them to matplotlib; labels leave out at most the highest level.", "quantifier": "all normalizations and levels", "why_tests_cant": "All normalizations and levels.", "anchors": ["solarwindpy/plotting/hist2d.py:Hist2D._get_contour_levels", "solarwindpy/plotting/hist2d.py:Hist2D.plot_contours"]}
{"id": "C166", "title": "Opacity falls with the value", "statement": "With alpha_fcn the opacity of a bin is 1 at the smallest value and decreases strictly to 0 at the largest, as the fourth root of the normalised distance from the largest; bins without a finite value are invisible; if all values agree all are opaque.", "quantifier": "all tables of values", "why_tests_cant": "All values.", "anchors": ["solarwindpy/plotting/hist2d.py:Hist2D.make_plot"]}
{"id": "C167", "title": "A 1D histogram plot shows its values over its bins", "statement": "make_plot draws the values over the middles of their bins on the scale of the data, with spreads as error bars or as a band of one spread to each side; transpose_axes swaps both.", "quantifier": "all edges, values, spreads and flags", "why_tests_cant": "All combinations of flags and data.", "anchors": ["solarwindpy/plotting/hist1d.py:Hist1D.make_plot"]}
{"id": "C168", "title": "Time step and frequency labels are unambiguous", "statement": "The label of a time step shows its count and unit; different steps have different texts and different file names; a step pandas does not understand is labelled ??? / dt-UNK; a frequency shows the reciprocal of the step as its unit, and different frequencies have different texts.", "quantifier": "all counts and all unit names starting with a letter", "why_tests_cant": "Counts are unbounded integers and unit names arbitrary, so no list of examples excludes a collision.", "anchors": ["solarwindpy/plotting/labels/datetime.py:Timedelta", "solarwindpy/plotting/labels/datetime.py:Frequency"]}
{"id": "C169", "title": "Date labels and their file names", "statement": "Epoch accepts exactly the four TeX spaces and raises ValueError otherwise; its two names are title-cased (first letter of each word capital, others small, nothing else changed); epochs with the same file name have the same names; a DateTime's file name has neither blanks nor capitals.", "quantifier": "all names and spaces", "why_tests_cant": "All strings.", "anchors": ["solarwindpy/plotting/labels/datetime.py:Epoch", "solarwindpy/plotting/labels/datetime.py:DateTime", "solarwindpy/plotting/labels/datetime.py:January1st"]}
{"id": "C170", "title": "Elemental abundance labels", "statement": "An abundance label is the ratio of the species' TeX, followed by the photospheric one if normalised, with unit % or #; normalised and plain ratios have different TeX and file names, and file names determine species and reference.", "quantifier": "all species names and flags", "why_tests_cant": "All strings.", "anchors": ["solarwindpy/plotting/labels/elemental_abundance.py:ElementalAbundance"]}
{"id": "C171", "title": "Ion and charge state labels", "statement": "Ion accepts exactly the charges that are integer texts, i or j, raising ValueError otherwise; its TeX is the species with the charge as exponent; ions with the same file name have the same species and charge; the ratio of two ions is dimensionless and named by both.", "quantifier": "all species and charge texts", "why_tests_cant": "All strings.", "anchors": ["solarwindpy/plotting/labels/composition.py:Ion", "solarwindpy/plotting/labels/composition.py:ChargeStateRatio"]}
{"id": "C172", "title": "Sunspot number and cross-correlation labels", "statement": "SSN accepts exactly its eight kinds in any case (AssertionError otherwise), and the kinds have different TeX and file names; Xcorr raises TypeError for operands that are neither labels nor strings, and its TeX holds no blank and no doubled thin space and otherwise quotes its operands in order.", "quantifier": "all keys, operands, methods", "why_tests_cant": "All strings.", "anchors": ["solarwindpy/plotting/labels/special.py:SSN", "solarwindpy/plotting/labels/special.py:Xcorr"]}
{"id": "C173", "title": "Activity tables are identified by their keys", "statement": "Exactly the seven SIDC and five LISIRD keys are accepted, every other raises NotImplementedError; different keys lead to different published addresses.", "quantifier": "all keys", "why_tests_cant": "All strings.", "anchors": ["solarwindpy/solar_activity/base.py:ID.set_key", "solarwindpy/solar_activity/sunspot_number/sidc.py:SIDC_ID", "solarwindpy/solar_activity/lisird/lisird.py:LISIRD_ID"]}
{"id": "C174", "title": "Rows are dated by their calendar date", "statement": "A row of a monthly or daily sunspot table is dated at midnight of the first of its month or of its day in the Gregorian calendar; dates that do not exist are refused; times are in the order of the dates.", "quantifier": "all years, months and days", "why_tests_cant": "All dates, including every leap year.", "anchors": ["solarwindpy/solar_activity/sunspot_number/sidc.py:SIDCLoader.download_data"]}
{"id": "C175", "title": "A sunspot table keeps the published numbers", "statement": "Each published number is kept in its row under its column, -1 being shown as missing; the standard error is the spread over the square root of the number of observations; every accepted key makes an indicator.", "quantifier": "all tables and rows", "why_tests_cant": "All published tables.", "anchors": ["solarwindpy/solar_activity/sunspot_number/sidc.py:SIDCLoader.download_data", "solarwindpy/solar_activity/sunspot_number/sidc.py:SIDCLoader.convert_nans", "solarwindpy/solar_activity/sunspot_number/sidc.py:SIDC.__init__"]}
{"id": "C176", "title": "Missing LISIRD values become NaN", "statement": "Values equal to the published mark are NaN in the table and all others are unchanged; uninspected tables and differing marks are refused with NotImplementedError.", "quantifier": "all tables, marks and values", "why_tests_cant": "All tables.", "anchors": ["solarwindpy/solar_activity/lisird/lisird.py:LISIRDLoader.convert_nans"]}
{"id": "C177", "title": "One row per published time", "statement": "A LISIRD table keeps each published time once, with its first record's values, in the published order, leaving out only the three known bad times of f107-penticton; times published in order increase strictly.", "quantifier": "all published tables", "why_tests_cant": "All tables, any repetition pattern.", "anchors": ["solarwindpy/solar_activity/lisird/lisird.py:LISIRDLoader.verify_monotonic_epoch"]}
{"id": "C178", "title": "Interpolating a LISIRD indicator", "statement": "interpolate_data uses exactly the measured samples of the indicator's own column: it succeeds iff these are at least four in strictly increasing order and the target is not empty, never fails on missing samples and never extrapolates.", "quantifier": "all tables, targets and splines", "why_tests_cant": "All sample patterns.", "anchors": ["solarwindpy/solar_activity/lisird/lisird.py:LISIRD.interpolate_data", "solarwindpy/solar_activity/lisird/lisird.py:LISIRD.run_normalization"]}
{"id": "C179", "title": "The sunspot curve on a colour bar", "statement": "plot_on_colorbar draws each sample of the window at its time, at the fraction of the bar given by a scale that ends at a multiple of 100 within 50 of the maximum, and labels the ticks with that scale.", "quantifier": "all windows, samples and limits", "why_tests_cant": "All samples and limits.", "anchors": ["solarwindpy/solar_activity/sunspot_number/sidc.py:SIDC.plot_on_colorbar"]}
{"id": "C180", "title": "The joint table of indices", "statement": "get_all_indices has one row for each time of any index, showing each index's own value there or nothing, MgII by day.", "quantifier": "all four tables", "why_tests_cant": "All combinations of times.", "anchors": ["solarwindpy/solar_activity/__init__.py:get_all_indices"]}
{"id": "C181", "title": "Fitted parameters by their documented names", "statement": "Every fit function documents the parameters its fit returns, and evaluating the function at the fitted parameters means its formula with the values of these names.", "quantifier": "all fit functions and parameter values", "why_tests_cant": "All parameter values.", "anchors": ["solarwindpy/fitfunctions/core.py:FitFunction.argnames", "solarwindpy/fitfunctions/core.py:FitFunction.popt"]}
{"id": "C182", "title": "An ion's own quantities", "statement": "Ion.cs is |w| sqrt(5/6), Ion.anisotropy is (w_perp/w_par) squared; of attribute-style names exactly the documented ones exist and names not known are refused.", "quantifier": "all thermal speeds, all names", "why_tests_cant": "Real identities; all names.", "anchors": ["solarwindpy/core/ions.py:Ion.cs", "solarwindpy/core/ions.py:Ion.anisotropy"]}
{"id": "C183", "title": "Labels spell out what they show", "statement": "Count, Probability, CountOther, MathFcn, AbsoluteValue, Distance2Sun, ManualLabel, DateTime, SSN and Xcorr labels show exactly the wrapped quantity, comparison, value, normalisation and units in their text and file name, units on one line or two, the description above; unknown normalisations and distance units are refused.", "quantifier": "all wrapped labels, comparisons, functions, names and descriptions", "why_tests_cant": "All texts.", "anchors": ["solarwindpy/plotting/labels/special.py:Count", "solarwindpy/plotting/labels/special.py:Probability", "solarwindpy/plotting/labels/special.py:CountOther", "solarwindpy/plotting/labels/special.py:MathFcn", "solarwindpy/plotting/labels/special.py:AbsoluteValue", "solarwindpy/plotting/labels/special.py:Distance2Sun", "solarwindpy/plotting/labels/special.py:ManualLabel", "solarwindpy/plotting/labels/special.py:SSN", "solarwindpy/plotting/labels/special.py:Xcorr", "solarwindpy/plotting/labels/datetime.py:DateTime"]}
{"id": "C184", "title": "The TeX of labels is well formed", "statement": "The TeX of a TeXlabel balances its braces and parentheses and has no empty or dangling group, whichever of component and species are given, also for uncertainties.", "quantifier": "all measurements, components and species", "why_tests_cant": "All names and combinations.", "anchors": ["solarwindpy/plotting/labels/base.py:TeXlabel._build_one_label"]}
{"id": "C185", "title": "First guesses of truncated Gaussians", "statement": "GaussianTimesHeavySide, GaussianTimesHeavySidePlusHeavySide and GaussianPlusHeavySide start from the centre, spread and largest value of the observations beyond the transition (and the mean level before it); with no observation there, or no transition given, there is no fit.", "quantifier": "all observations and transitions", "why_tests_cant": "All data sets; all abscissae.", "anchors": ["solarwindpy/fitfunctions/composite.py:GaussianPlusHeavySide.p0", "solarwindpy/fitfunctions/composite.py:GaussianTimesHeavySide.p0", "solarwindpy/fitfunctions/composite.py:GaussianTimesHeavySidePlusHeavySide.p0"]}
{"id": "C186", "title": "A saturating exponential needs its level", "statement": "ExponentialCDF cannot be fitted or evaluated before set_y0; afterwards its curve rises from 0 towards the level; a new level rescales the curve and keeps the fitted rate. A failed fit reports its exception as asked.", "quantifier": "all data, optimisers and levels", "why_tests_cant": "All optimiser behaviours and levels.", "anchors": ["solarwindpy/fitfunctions/exponentials.py:ExponentialCDF"]}
{"id": "C187", "title": "Saturation: lines, angle and first guess", "statement": "m1, m2 and x2 of a Saturation are the two lines whose minimum is the fitted curve, meeting at (xs, s) at the angle theta; the first guess reproduces data lying on two lines that meet at the given transition.", "quantifier": "all parameters; all two-line data", "why_tests_cant": "Real identities with arctangents; all data sets.", "anchors": ["solarwindpy/fitfunctions/hinge.py:Saturation"]}
{"id": "C188", "title": "HingeSaturation: first guess", "statement": "On data that rise linearly to (xh, yh) and continue on another line the first guess is those two lines and reproduces every observation.", "quantifier": "all data, hinges and slopes", "why_tests_cant": "All data sets and scales.", "anchors": ["solarwindpy/fitfunctions/hinge.py:HingeSaturation.p0"]}
{"id": "C189", "title": "Named parameters of the remaining models", "statement": "For the composite, hinge, exponential and power-law models too the parameter names are those of the documented curve, and their first guesses are the documented ones.", "quantifier": "all parameter values and observations", "why_tests_cant": "All values.", "anchors": ["solarwindpy/fitfunctions/composite.py:GaussianPlusHeavySide", "solarwindpy/fitfunctions/hinge.py:HingeMax", "solarwindpy/fitfunctions/power_laws.py:PowerLawOffCenter", "solarwindpy/fitfunctions/exponentials.py:ExponentialPlusC"]}
{"id": "C190", "title": "Uncertainties of fitted parameters", "statement": "With more observations than parameters pcov is the inverse of the normal matrix times twice the cost per degree of freedom and psigma the roots of its diagonal; without degrees of freedom every uncertainty is infinite; a parameter the data do not determine has no finite uncertainty.", "quantifier": "all Jacobians, costs and sizes", "why_tests_cant": "Matrix identity for every Jacobian.", "anchors": ["solarwindpy/fitfunctions/core.py:FitFunction._calc_popt_pcov_psigma_chisq", "solarwindpy/fitfunctions/core.py:FitFunction.psigma", "solarwindpy/fitfunctions/core.py:FitFunction.pcov"]}
{"id": "C191", "title": "Robust and plain chi-square", "statement": "The robust chi-square per degree of freedom never exceeds the plain one, equals it exactly when no residual exceeds f_scale, and neither exists without degrees of freedom.", "quantifier": "all residuals, scales and parameter counts", "why_tests_cant": "All residual vectors.", "anchors": ["solarwindpy/fitfunctions/core.py:FitFunction._calc_popt_pcov_psigma_chisq", "solarwindpy/fitfunctions/core.py:FitFunction.chisq_dof"]}
{"id": "C192", "title": "The picture of a 2D histogram", "statement": "Hist2D.make_plot hands matplotlib exactly one cell per pair of bins, whether or not the bins hold data; the cell between two neighbouring drawn edges shows the aggregate of the data between these edges (of the magnitudes, on a log axis), and is left blank if there is none.", "quantifier": "all data, strictly increasing edges, log flags, limits, normalisations, aggregates", "why_tests_cant": "Every pattern of empty rows and columns of bins.", "anchors": ["solarwindpy/plotting/hist2d.py:Hist2D.make_plot", "solarwindpy/plotting/hist2d.py:Hist2D._prep_agg_for_plot", "solarwindpy/plotting/agg_plot.py:AggPlot.edges"]}
{"id": "C193", "title": "Opacity of the cells", "statement": "With alpha_fcn every cell gets its own opacity in [0, 1], falling with the aggregate alpha_fcn gives its own bin; cells without a value are invisible and plain counts are left alone.", "quantifier": "all data, bins and aggregates", "why_tests_cant": "Every pattern of empty rows and columns of bins.", "anchors": ["solarwindpy/plotting/hist2d.py:Hist2D.make_plot"]}
{"id": "C194", "title": "Contours follow the picture", "statement": "plot_contours draws exactly the values of the coloured picture, each at a point inside its own cell; NaN-aware smoothing keeps the set of shown cells and the range of their values.", "quantifier": "all data, bins, smoothing kernels", "why_tests_cant": "Every kernel and pattern of missing cells.", "anchors": ["solarwindpy/plotting/hist2d.py:Hist2D.plot_contours", "solarwindpy/plotting/hist2d.py:Hist2D.plot_hist_with_contours", "solarwindpy/plotting/tools.py:nan_gaussian_filter"]}
{"id": "C195", "title": "Labels name the normalisation", "statement": "Through any history of making histograms and labels, set_axnorm and set_labels, the count label on the colour bar says how its histogram is normalised, and so does the path the figure is saved under.", "quantifier": "all histories of histograms and label objects", "why_tests_cant": "Histories with shared mutable labels.", "anchors": ["solarwindpy/plotting/hist2d.py:Hist2D.set_axnorm", "solarwindpy/plotting/hist2d.py:Hist2D.set_labels", "solarwindpy/plotting/hist1d.py:Hist1D.set_axnorm"]}
{"id": "C196", "title": "Joint plots add up", "statement": "In make_joint_h2_h1_plot each bar above the picture is the total of the counts painted in its column, each bar beside it the total of its row.", "quantifier": "all data and bins", "why_tests_cant": "All samples and bins.", "anchors": ["solarwindpy/plotting/hist2d.py:Hist2D.make_joint_h2_h1_plot", "solarwindpy/plotting/hist2d.py:Hist2D.project_1d"]}
{"id": "C197", "title": "Beta-anisotropy plots show well-populated cells", "statement": "A BetaRPlot shows a cell with its count exactly if it holds at least five data, on logarithmic axes unless switched off, labelled with the species' parallel beta and temperature (for a sum of species: pressure) anisotropy.", "quantifier": "all data, bins and species", "why_tests_cant": "All samples and species names.", "anchors": ["solarwindpy/instabilities/beta_ani.py:BetaRPlot"]}
{"id": "C198", "title": "An adaptive-mesh plot shows its data", "statement": "Whatever was done to a SpiralPlot2D before, as long as build_grouped was called since the last initialize_mesh, make_plot draws one rectangle per cell; every complete row given to the constructor lies in exactly one drawn rectangle (magnitudes on log axes), and each rectangle shows the aggregate of exactly its rows, or is blank if it has none, is filtered out or its count is outside the limits. initialize_mesh succeeds exactly when all coordinates are finite as plotted. A plot without groups is refused.", "quantifier": "all data, initial bins, log flags, thread schedules and histories of calls", "why_tests_cant": "Histories of calls, schedules and all data.", "anchors": ["solarwindpy/plotting/spiral.py:SpiralPlot2D.make_plot", "solarwindpy/plotting/spiral.py:SpiralPlot2D.initialize_mesh", "solarwindpy/plotting/spiral.py:SpiralPlot2D.build_grouped", "solarwindpy/plotting/spiral.py:SpiralPlot2D.agg"]}
{"id": "C199", "title": "Opacity and contours of an adaptive-mesh plot", "statement": "alpha_fcn gives every rectangle its own opacity in [0, 1], falling with the alpha aggregate of its cell, 0 where there is none; plot_contours interpolates exactly the rectangles that are not blank, from a point inside each; an unknown method is refused first.", "quantifier": "all data, meshes, filters, limits and methods", "why_tests_cant": "All meshes and patterns of blank cells.", "anchors": ["solarwindpy/plotting/spiral.py:SpiralPlot2D.make_plot", "solarwindpy/plotting/spiral.py:SpiralPlot2D.plot_contours"]}
{"id": "C200", "title": "New data in an existing adaptive-mesh plot", "statement": "After SpiralPlot2D.set_data the plot shows the new rows: either each new row is shown in the rectangle it lies in, or the plot refuses until the mesh and the groups have been made again; making them again shows the new data if they lie within the initial bins and is refused otherwise.", "quantifier": "all plots, histories and replacement data", "why_tests_cant": "Histories of calls and all data.", "anchors": ["solarwindpy/plotting/spiral.py:SpiralPlot2D.set_data", "solarwindpy/plotting/spiral.py:SpiralPlot2D.build_grouped", "solarwindpy/plotting/spiral.py:SpiralPlot2D.initialize_mesh"]}
{"id": "C201", "title": "Saving a figure", "statement": "plotting.tools.save(fig, path) writes what the figure shows to <stem>.pdf and the same with one stamp (author, time) to <stem>.png, where the stem is the path without its extension; no other file changes. A call that cannot write raises and changes no file.", "quantifier": "all figures, paths, options, directories and disk contents", "why_tests_cant": "All names (dots, leading dots, no name) and disk states.", "anchors": ["solarwindpy/plotting/tools.py:save"]}
{"id": "C202", "title": "The stamp is in the png only", "statement": "However often a figure is saved, its pdf carries no stamp and its png exactly one.", "quantifier": "all histories of calls on any number of figures", "why_tests_cant": "Histories of calls.", "anchors": ["solarwindpy/plotting/tools.py:save"]}
{"id": "C203", "title": "Distinct paths are distinct files", "statement": "Figures saved under different paths end up in different files, so a saved figure stays on disk until something is saved under its path again.", "quantifier": "all histories of calls, all names", "why_tests_cant": "Histories and all names.", "anchors": ["solarwindpy/plotting/tools.py:save"]}
{"id": "C204", "title": "A clean report means the committed code", "statement": "If get_git_info says dirty=False, the files on disk are those of the commit it names.", "quantifier": "all histories of edits, deletions, staging, unstaging and commits", "why_tests_cant": "Histories of the repository.", "anchors": ["solarwindpy/reproducibility.py:get_git_info", "solarwindpy/reproducibility.py:print_info"]}
{"id": "C205", "title": "Which commit is reported", "statement": "get_git_info reports the commit of the repository solarwindpy was loaded from, or 'unknown' with dirty=None if there is none; it never raises.", "quantifier": "all directory trees, repositories, paths", "why_tests_cant": "All directory layouts.", "anchors": ["solarwindpy/reproducibility.py:get_git_info"]}
{"id": "C206", "title": "The citation sentence", "statement": "get_citation_string names version, Python, and commit, says whether there are local modifications, and identifies the code that was used.", "quantifier": "all versions and repository states", "why_tests_cant": "All repository states.", "anchors": ["solarwindpy/reproducibility.py:get_citation_string"]}
{"id": "C207", "title": "Drawing only the fits used in the trend", "statement": "plot_all_popt_1d(only_plot_data_in_trend_fit=True) draws exactly the 1d fits that the trend function was fitted to, in their order, with their parameter and its uncertainty.", "quantifier": "all trend fits, axes, bins, limits", "why_tests_cant": "All data, limits and scales.", "anchors": ["solarwindpy/fitfunctions/trend_fits.py:TrendFit.plot_all_popt_1d"]}
{"id": "C208", "title": "Drawing all 1d fits", "statement": "plot_all_popt_1d draws every successful 1d fit at its bin's centre (ten to its power on a log axis) with the parameter asked for, as a band or with error bars of the parameter named; a band without a width and non-interval columns are refused.", "quantifier": "all trend fits and parameter names", "why_tests_cant": "All fits and names.", "anchors": ["solarwindpy/fitfunctions/trend_fits.py:TrendFit.plot_all_popt_1d"]}
{"id": "C209", "title": "Which figures say 'In Fit'", "statement": "plot_all_ffuncs writes 'In Fit' into the legend of exactly those 1d fits that were used in the trend.", "quantifier": "all trend fits and limits", "why_tests_cant": "All data and limits.", "anchors": ["solarwindpy/fitfunctions/trend_fits.py:TrendFit.plot_all_ffuncs"]}
{"id": "C210", "title": "Options of the trend plots", "statement": "Line options of plot_all_popt_1d and plot_trend_fit_resid reach the drawn line under any of their matplotlib names, defaults apply to what is not asked for, and one given twice is refused.", "quantifier": "all sets of options", "why_tests_cant": "All option dictionaries.", "anchors": ["solarwindpy/fitfunctions/trend_fits.py:TrendFit.plot_all_popt_1d", "solarwindpy/fitfunctions/trend_fits.py:TrendFit.plot_trend_fit_resid"]}
{"id": "C211", "title": "Shared labels of a trend and its 1d fits", "statement": "set_shared_labels gives the trend the labels named and every 1d fit the trend's y label on its x axis and the trend's z label on its y axis; other axes' names are refused.", "quantifier": "all labels and fits", "why_tests_cant": "All labels; all numbers of fits.", "anchors": ["solarwindpy/fitfunctions/trend_fits.py:TrendFit.set_shared_labels"]}
{"id": "C212", "title": "The summary of a selection", "statement": "After disconnect the text box reports the number of boxes drawn, the sample size, the number of data selected and the number of empty boxes, in one line or one below the other.", "quantifier": "all sessions: boxes, other patches, data, samplers", "why_tests_cant": "Histories of drawing.", "anchors": ["solarwindpy/plotting/select_data_from_figure.py:SelectFromPlot2D._finalize_text", "solarwindpy/plotting/select_data_from_figure.py:SelectFromPlot2D.disconnect", "solarwindpy/plotting/select_data_from_figure.py:SelectFromPlot2D.num_selection_patches"]}
{"id": "C213", "title": "The text while selecting", "statement": "A selection can be started on any figure; after each box the text box says its number and its corners and the object remembers the boxes in order.", "quantifier": "all sessions, axes scales, matplotlib releases", "why_tests_cant": "Histories of drawing.", "anchors": ["solarwindpy/plotting/select_data_from_figure.py:SelectFromPlot2D._update_text", "solarwindpy/plotting/select_data_from_figure.py:SelectFromPlot2D.onselect", "solarwindpy/plotting/select_data_from_figure.py:SelectFromPlot2D.start_selector"]}
{"id": "C214", "title": "The drawn sample lies in the boxes", "statement": "scatter_sample draws one point for each sampled label, at the datum of that label as the figure shows it, and each lies in a box that was drawn.", "quantifier": "all data, boxes, scales and samplers", "why_tests_cant": "All data and samplers.", "anchors": ["solarwindpy/plotting/select_data_from_figure.py:SelectFromPlot2D.scatter_sample", "solarwindpy/plotting/select_data_from_figure.py:SelectFromPlot2D.sample_data"]}
{"id": "C215", "title": "The annotation of a fit", "statement": "A fit's annotation consists of the lines of its formula, one line for each parameter in their order with the digits printed for the value and its uncertainty (without it if strip_uncertainties), each times its power of ten, and, as far as asked for, a paragraph with the number of points, both chi-squares and r-squared.", "quantifier": "all formulas, parameter names, values and uncertainties (also nan and infinite), options", "why_tests_cant": "All texts and numbers.", "anchors": ["solarwindpy/fitfunctions/tex_info.py:TeXinfo._build_fit_parameter_info", "solarwindpy/fitfunctions/tex_info.py:TeXinfo.TeX_popt"]}
{"id": "C216", "title": "The annotation of a fit simplified for a paper", "statement": "With simplify_info_for_paper each parameter's line says the number that was printed for its value, in the shortest way and without uncertainty; formula and statistics are unchanged.", "quantifier": "all reports whose parameter names contain neither spaces nor '=', all values", "why_tests_cant": "All numbers.", "anchors": ["solarwindpy/fitfunctions/tex_info.py:TeXinfo._simplify_for_paper", "solarwindpy/fitfunctions/tex_info.py:TeXinfo._build_fit_parameter_info"]}
{"id": "C217", "title": "A converged fit is complete", "statement": "When the optimiser converges make_fit returns None, and for each parameter popt, psigma, fit_bounds, initial_guess_info and the row of combined_popt_psigma give its fitted value, its uncertainty, the bounds asked for and the start that was used; TeX_info and plotter show these values, the chi-squared and r-squared of this fit and the curve at all raw abscissae.", "quantifier": "all classes with an initial guess, data, bounds (for all, each or by name), starts and optimiser results", "why_tests_cant": "All optimisers and results.", "anchors": ["solarwindpy/fitfunctions/core.py:FitFunction.make_fit", "solarwindpy/fitfunctions/core.py:FitFunction.build_TeX_info", "solarwindpy/fitfunctions/core.py:FitFunction.build_plotter", "solarwindpy/fitfunctions/core.py:FitFunction.initial_guess_info", "solarwindpy/fitfunctions/core.py:FitFunction.combined_popt_psigma", "solarwindpy/fitfunctions/core.py:FitFunction.fit_bounds"]}
{"id": "C218", "title": "Lines through repeated abscissae", "statement": "A straight line can be fitted to observations some of which have the same abscissa: the documented fallback to the optimiser's default start leads to a completed fit.", "quantifier": "all data with a repeated abscissa, all starts, bounds and optimiser results", "why_tests_cant": "All data.", "anchors": ["solarwindpy/fitfunctions/lines.py:Line.p0", "solarwindpy/fitfunctions/core.py:FitFunction.initial_guess_info"]}
{"id": "C219", "title": "All reports are about one fit", "statement": "Over every history of fits and replaced observations a fit object reports nothing until a fit completes and then parameters, uncertainties, chi-squared, bounds, optimiser result, TeX info and plotter of one and the same fit, the last that completed.", "quantifier": "all histories of make_fit and set_fit_obs, all optimiser outcomes", "why_tests_cant": "Histories with failures.", "anchors": ["solarwindpy/fitfunctions/core.py:FitFunction.make_fit", "solarwindpy/fitfunctions/core.py:FitFunction.set_fit_obs", "solarwindpy/fitfunctions/core.py:FitFunction._run_least_squares"]}
{"id": "C220", "title": "The default start is feasible", "statement": "A fit without a start of its own begins at a finite point within the bounds.", "quantifier": "all bounds, finite or infinite, with lower < upper", "why_tests_cant": "All bounds.", "anchors": ["solarwindpy/fitfunctions/core.py:FitFunction._run_least_squares"]}
{"id": "C221", "title": "Projections of orbit histograms", "statement": "OrbitHist2D.project_1d gives an orbit histogram over the bins and scale of the axis asked for. With project_counts it shows per bin and leg how many data lie there; otherwise, for unweighted data, the mean per leg of the other coordinate over the data in range; weighted data give the mean weight, and the y label says what is shown.", "quantifier": "all data, legs, bins, scales, labels and weights", "why_tests_cant": "All data and bins.", "anchors": ["solarwindpy/plotting/orbits.py:OrbitHist2D.project_1d", "solarwindpy/plotting/orbits.py:OrbitHist1D.agg"]}
{"id": "C222", "title": "Lines of an orbit histogram", "statement": "OrbitHist1D.make_plot draws one line per leg, labelled with it, with a point in the middle of every bin on the scale of the data, as high as the leg's value in the bin.", "quantifier": "all data, legs, bins and styles", "why_tests_cant": "All data and bins.", "anchors": ["solarwindpy/plotting/orbits.py:OrbitHist1D.make_plot"]}
{"id": "C223", "title": "Specific entropy of an ion", "statement": "Ion.specific_entropy (and S) is p rho^(-5/3) in SI over its unit, as the plasma reports for that species alone; an unknown species raises KeyError.", "quantifier": "all ions and rows with positive density", "why_tests_cant": "All rows.", "anchors": ["solarwindpy/core/ions.py:Ion.specific_entropy", "solarwindpy/core/ions.py:Ion.S", "solarwindpy/core/plasma.py:Plasma.specific_entropy"]}
{"id": "C224", "title": "Tensors are made of complete tables", "statement": "A Tensor accepts exactly the non-empty tables with columns per, par and scalar, and holds the table; set_data replaces it.", "quantifier": "all tables", "why_tests_cant": "All tables.", "anchors": ["solarwindpy/core/tensor.py:Tensor.set_data", "solarwindpy/core/tensor.py:Tensor._validate_data"]}
{"id": "C225", "title": "Drawn observations", "statement": "plot_raw and plot_used draw a line through all raw (used) points with their window, or error bars without one, each with exactly the options asked for (under any of matplotlib's names) over the documented default look; the window takes the line's colour and the edges the window's unless asked otherwise; an option given twice raises TypeError.", "quantifier": "all observations and keyword arguments", "why_tests_cant": "All combinations of options and aliases.", "anchors": ["solarwindpy/fitfunctions/plots.py:FFPlot.plot_raw", "solarwindpy/fitfunctions/plots.py:FFPlot.plot_used"]}
{"id": "C226", "title": "Drawn fit", "statement": "plot_fit draws the fitted curve over every raw abscissa, with exactly the options asked for over the default look, and the annotation if it is wanted.", "quantifier": "all fits and keyword arguments", "why_tests_cant": "All combinations of options.", "anchors": ["solarwindpy/fitfunctions/plots.py:FFPlot.plot_fit"]}
{"id": "C227", "title": "All three together", "statement": "plot_raw_used_fit draws the raw observations, the used ones and the fit, in this order; the observations share a drawstyle (steps-mid by default) and the fit is in front; each part takes its own options.", "quantifier": "all fits and dictionaries of options", "why_tests_cant": "All combinations of options.", "anchors": ["solarwindpy/fitfunctions/plots.py:FFPlot.plot_raw_used_fit"]}
{"id": "C228", "title": "Placing the annotation", "statement": "annotate_info puts the text where, and styled as, it is asked to, with the documented defaults for what is not given; other options reach ax.text.", "quantifier": "all dictionaries of options", "why_tests_cant": "All combinations of options.", "anchors": ["solarwindpy/fitfunctions/tex_info.py:TeXinfo.annotate_info"]}
{"id": "C229", "title": "Threshold curves as drawn", "statement": "plot_contours draws one curve per growth rate and instability asked for (any case of letters), through the given betas at the heights of the threshold formula, in colours, dashes and markers that tell them apart, under their names and with the options asked for; unknown names, rates and repeated options raise the documented errors.", "quantifier": "all beta arrays, selections and options", "why_tests_cant": "All selections and options.", "anchors": ["solarwindpy/instabilities/verscharen2016.py:StabilityContours.plot_contours", "solarwindpy/instabilities/verscharen2016.py:StabilityContours._calc_instability_contours"]}
{"id": "C230", "title": "Residual curves as drawn", "statement": "plot_residuals draws the residuals against the used abscissae with exactly the options asked for over the defaults, for one kind or both, and marks points as documented.", "quantifier": "all fits, kinds and options", "why_tests_cant": "All combinations of options.", "anchors": ["solarwindpy/fitfunctions/plots.py:FFPlot.plot_residuals"]}
{"id": "C231", "title": "Axes of fit plots", "statement": "After any plot of a fit the axes carry its labels and its scales (logarithmic exactly if set_log says so); residuals in per cent are shown from -100 to 100.", "quantifier": "all labels, scales and sequences of plots on the same axes", "why_tests_cant": "All histories of an axes object.", "anchors": ["solarwindpy/fitfunctions/plots.py:FFPlot._format_hax", "solarwindpy/fitfunctions/plots.py:FFPlot._format_rax"]}
{"id": "C232", "title": "Fourteen digits in double precision", "statement": "Run in IEEE double precision on readings of ordinary size, number and mass densities, pressures, temperatures, field strength and pressure, beta, sound speed, Alfven speed and pressure anisotropy are the value of their formula on exactly these readings up to a counted number of roundings (3 to 31 times 2^-52 of the value, plus one or two per species): no overflow, underflow or loss of digits occurs, and a missing reading gives what it gives in the formula.", "quantifier": "all constants in 1e-33..1e33, readings in 1e-15..1e15 (for sums also missing or zero) and up to 40 species", "why_tests_cant": "Real-valued formulas are never computed: tests compare floats with floats.", "anchors": ["solarwindpy/core/plasma.py:Plasma.number_density", "solarwindpy/core/plasma.py:Plasma.mass_density", "solarwindpy/core/plasma.py:Plasma.pth", "solarwindpy/core/plasma.py:Plasma.temperature", "solarwindpy/core/plasma.py:Plasma.beta", "solarwindpy/core/plasma.py:Plasma.sound_speed", "solarwindpy/core/plasma.py:Plasma.ca", "solarwindpy/core/plasma.py:Plasma.anisotropy", "solarwindpy/core/units_constants.py:Units"]}
{"id": "C233", "title": "Alfvenic quantities keep their digits", "statement": "Run in IEEE double precision on fluctuations of ordinary size, the Elsasser, kinetic, magnetic and total energies have a relative error of at most 8 times 2^-52 (also where the fluctuations nearly cancel), the normalised cross helicity and residual energy an absolute error of at most 2^-47, or are undefined exactly where their formula is; the ratios of energies have a relative error of at most 17 times 2^-52.", "quantifier": "all fluctuations whose components are missing, zero or in 1e-15..1e15, of either sign, with either polarity", "why_tests_cant": "Exact values are never computed; cancellation needs particular digits.", "anchors": ["solarwindpy/core/alfvenic_turbulence.py:AlfvenicTurbulence.z_plus", "solarwindpy/core/alfvenic_turbulence.py:AlfvenicTurbulence.z_minus", "solarwindpy/core/alfvenic_turbulence.py:AlfvenicTurbulence.e_plus", "solarwindpy/core/alfvenic_turbulence.py:AlfvenicTurbulence.sigma_c", "solarwindpy/core/alfvenic_turbulence.py:AlfvenicTurbulence.sigma_r", "solarwindpy/core/alfvenic_turbulence.py:AlfvenicTurbulence.alfven_ratio"]}
{"id": "C234", "title": "Histograms in double precision", "statement": "Run in IEEE double precision, two-dimensional tables of counts are exactly the true counts, colour limits included, for any edges and fewer than 2^53 rows; column, row and total normalisation of counts give the correctly rounded true value; and for every positive aggregate the largest bin of each column (row, table) becomes exactly 1, all others stay in [0, 1], order is kept and empty bins stay empty.", "quantifier": "all data, edges, limits, aggregates and transcendental functions", "why_tests_cant": "Rounding and special values are not enumerable.", "anchors": ["solarwindpy/plotting/hist2d.py:Hist2D.agg", "solarwindpy/plotting/hist2d.py:Hist2D._axis_normalizer", "solarwindpy/plotting/agg_plot.py:AggPlot.make_cut"]}
{"id": "C235", "title": "Densities integrate to one in double precision", "statement": "Run in IEEE double precision, probability-density histograms (1D 'd', 2D 'd', 'cd' columns and 'rd' rows) of counts integrate to one within 3 (2D 'd': 5) times 2^-52, whatever the number of bins, the edges, the data and the colour limits.", "quantifier": "all data of fewer than 2^53 rows, all increasing edges with steps in 2^-400..2^400", "why_tests_cant": "Accumulated rounding depends on particular edges and counts.", "anchors": ["solarwindpy/plotting/hist1d.py:Hist1D._axis_normalizer", "solarwindpy/plotting/hist2d.py:Hist2D._axis_normalizer"]}
{"id": "C236", "title": "Sunspot numbers scaled to the unit interval in double precision", "statement": "Run in IEEE double precision, run_normalization by 'feature' never leaves [0, 1], gives exactly 0 at the smallest and exactly 1 at the largest value of a cycle that is not constant and keeps the order of samples; by 'max' the same holds for non-negative values with exactly 1 at the largest; missing values stay missing and constant cycles become missing.", "quantifier": "all cycles and all data below 2^1022 in size", "why_tests_cant": "Rounding, underflow and subnormal differences are not enumerable.", "anchors": ["solarwindpy/solar_activity/sunspot_number/sidc.py:SIDC.run_normalization"]}
{"id": "C237", "title": "Magnitudes, unit vectors and cosines in double precision", "statement": "Run in IEEE double precision, the magnitude of a vector is never below any of its components and within 3 times 2^-52 of its exact value; each component of the unit vector stays in [-1, 1] and within 4 times 2^-52 of its exact value; the unit vector's own magnitude is 1 up to 7 times 2^-52; the cosine of the angle between two vectors has an absolute error of at most 11 times 2^-52 (so it exceeds 1 by no more than that) and the parallel and perpendicular projections ones of at most 7 and 17 times 2^-52 of the vector's length, also where the perpendicular part cancels.", "quantifier": "all vectors with components of either sign that are zero or of size 2^-50 to 2^50, not all zero", "why_tests_cant": "A test compares a few vectors within a tolerance it chose; the bound is over all roundings and all cancellations in the scalar product.", "anchors": ["solarwindpy/core/vector.py:Vector.mag", "solarwindpy/core/vector.py:Vector.unit_vector", "solarwindpy/core/vector.py:Vector.project", "solarwindpy/core/vector.py:Vector.cos_theta"]}
{"id": "C238", "title": "Colours of the stability map", "statement": "Under the norm and the colour map of a stability condition, every value drawn within half a unit of a code (lower end included) gets that code's colour and values outside -0.5..4.5 get none; the colour bar's ticks are the five codes in order, each in its own colour and labelled with the name of its condition; the inverse map undoes the map in both directions without ambiguity; and every row of numbers is classified to a code with a colour and a name.", "quantifier": "all values drawn, all rows of beta and anisotropy and all growth rates", "why_tests_cant": "A test looks at the rendered colours of a few values; the bands and their ends are statements about all real numbers.", "anchors": ["solarwindpy/instabilities/verscharen2016.py:StabilityCondition.norm", "solarwindpy/instabilities/verscharen2016.py:StabilityCondition.cmap", "solarwindpy/instabilities/verscharen2016.py:StabilityCondition.cbar_kwargs", "solarwindpy/instabilities/verscharen2016.py:StabilityCondition.stability_map_inverse"]}
{"id": "C239", "title": "Magnitude of a tensor", "statement": "The magnitude of a tensor is one third of its parallel component plus two thirds of its perpendicular one, for every row.", "quantifier": "all tensors that can be constructed", "why_tests_cant": "The shape of the table accepted at construction and the shape the magnitude needs have to be compared for all tables.", "anchors": ["solarwindpy/core/tensor.py:Tensor.magnitude"]}
{"id": "C240", "title": "The plot of an indicator and its extrema", "statement": "The plot shows the whole data curve and the threshold over all its times; red stars are exactly the maxima found and green ones the minima, each at its measured value, the red ones above the threshold and the green ones not; crossings, ranges and stars appear exactly when asked for; each range holds exactly the samples between its two ends, in a colour different from its neighbours; the legend names what is drawn but never the ranges; and everything found lies inside the time window of the plot.", "quantifier": "all data with distinct times, thresholds, windows of raw data and combinations of switches", "why_tests_cant": "A test sees one figure; that stars, curve and extrema agree must hold for every data set.", "anchors": ["solarwindpy/solar_activity/lisird/extrema_calculator.py:ExtremaCalculator.make_plot", "solarwindpy/solar_activity/lisird/extrema_calculator.py:ExtremaCalculator._plot_extrema", "solarwindpy/solar_activity/lisird/extrema_calculator.py:ExtremaCalculator._plot_extrema_ranges", "solarwindpy/solar_activity/lisird/extrema_calculator.py:ExtremaCalculator._format_axis"]}
{"id": "C241", "title": "The history of a trend fit", "statement": "A TrendFit can be made exactly from a DataFrame and two fit classes (the 1d class defaults to Gaussian). Over any history of set_agged, set_fitfunctions, make_ffunc1ds, make_1dfits and make_trend_func, accepted or rejected: a call that raises changes nothing; the 1d fits come from the table and class set when make_ffunc1ds was last called; after making and fitting each column is in exactly one of ffuncs and bad_fits by whether its fit succeeded; a trend function can be made exactly when there are fits and all succeeded, and has the class set then; and a column is never both in ffuncs and in bad_fits.", "quantifier": "all histories of calls, tables and classes, and every outcome of constructing and fitting", "why_tests_cant": "Stale state appears only in particular orders of calls; tests exercise one order.", "anchors": ["solarwindpy/fitfunctions/trend_fits.py:TrendFit.set_agged", "solarwindpy/fitfunctions/trend_fits.py:TrendFit.set_fitfunctions", "solarwindpy/fitfunctions/trend_fits.py:TrendFit.make_ffunc1ds", "solarwindpy/fitfunctions/trend_fits.py:TrendFit.make_1dfits", "solarwindpy/fitfunctions/trend_fits.py:TrendFit.make_trend_func"]}
{"id": "C242", "title": "Hatching the boxes without data", "statement": "After sampling, the hatched rectangles are, in order, exactly the drawn boxes that contain no data but those selected elsewhere; each covers exactly its box; no sampled datum is shown inside a hatched rectangle even where boxes overlap; and every box without a hatched rectangle has given at least one datum shown inside it.", "quantifier": "all data, boxes, earlier selections, axis scales and random outcomes", "why_tests_cant": "Overlapping boxes, logarithmic axes and earlier selections combine without bound.", "anchors": ["solarwindpy/plotting/select_data_from_figure.py:SelectFromPlot2D.plot_failed_samples", "solarwindpy/plotting/select_data_from_figure.py:SelectFromPlot2D.sample_data"]}
{"id": "C243", "title": "The centre-of-mass velocity in double precision", "statement": "Each component of the centre-of-mass velocity of 2 to 40 species, run in IEEE double precision, differs from the mean of exactly these velocity readings weighed by density times species mass by at most (2n+5)*2^-52 of the largest speed component among the species, also where components cancel; that mean is itself within the largest speed.", "quantifier": "all numbers of species from 2 to 40, all densities between 2^-50 and 2^50, components zero or of size 2^-50 to 2^50, ordinary physical constants", "why_tests_cant": "Rounding over the whole range of inputs cannot be enumerated.", "anchors": ["solarwindpy/core/plasma.py:Plasma.velocity"]}
{"id": "C244", "title": "What a sunspot-number object remembers", "statement": "Over any history of run_normalization, normalized and interpolate_data, accepted or rejected: the sunspot numbers never change; norm_by is the last allowed method asked for (reading normalized first counts as 'max') and an AttributeError before that; normalized is always the whole column by that one method; an interpolated table that has both columns has the normalised one of its own numbers by that method; an unknown method is refused and changes nothing; a normalisation fails exactly when the interpolated table holds only the normalised column; a failed interpolation changes nothing.", "quantifier": "all data, cycles, target times and histories of calls", "why_tests_cant": "Every order of the calls and every failure between them.", "anchors": ["solarwindpy/solar_activity/sunspot_number/sidc.py:SIDC.run_normalization", "solarwindpy/solar_activity/sunspot_number/sidc.py:SIDC.normalized", "solarwindpy/solar_activity/sunspot_number/sidc.py:SIDC.interpolate_data", "solarwindpy/solar_activity/base.py:ActivityIndicator.norm_by"]}
