# Formal model of SolarWindPy in Rocq/Coq 8.16

## Approach
* `rocq/theories/*` is a shallow, executable (Gallina) model, written function by function; each
  definition cites the file and lines of `/repo` it models and says where it simplifies. Python
  exceptions are values (`result`, with the exception class), so "raises" is part of every statement.
* Numbers: numeric functions are written once over a class `Arith` of number operations (`Num.v`) and
  instantiated with `XR` (real | +inf | -inf | NaN; exact arithmetic with the IEEE special cases) and,
  for the properties about rounding (C131-C135, C232-C237 and C243; integer rounding in C177), with IEEE binary64 from Flocq (`NumB64.v`).
  Transcendental functions (`ln exp pow atan2 tan`) exist for `XR` only and are Coq's real functions.
* Tables: a frame is a list of column keys (M,C,S) and a list of rows (timestamp, key -> value);
  pandas' alignment, skipna sums, `cut`, `groupby`, `searchsorted`, `interp`, `rolling` are modelled where used.
* Strings: Coq `string`, with executable split/join/sort/replace/lower.
* Stateful code (HDF store, activity cache, TeXinfo cache, trend fits, figure selection, mesh refinement) is a
  step function on a state; the theorems are inductions over histories, and crash points are prefixes of the
  list of file operations.
* Every property file `XThms.v` starts with a small specification in ordinary mathematics (sums, counts,
  order, membership) that does not use the model's helpers, and every theorem is followed by an `Example`
  with a concrete non-trivial instance of its hypotheses.
* A property that is false of the code is kept visible: it is *refuted* with a witness (`..._refuted`), and
  the strongest true variant is proved next to it (`..._partial` when it is weaker than the English claim).
* Theorems are tested against edited models (`seeded/LOG.jsonl`): hand-written bugs, and automatically
  generated ones (swapped arguments, changed comparisons, constants, dropped cases) for every model file.

## Plan per property

| id | property | what is modelled | how it is proved | theorems in |
|---|---|---|---|---|
| C01 | Species specification is canonical | `_conform_species`, `_clean_species_for_setting` on strings | uniqueness of sorted permutations, split/join inverse | SpeciesThms, Tight4Thms |
| C02 | Species arguments are rejected exactly in the documented cases | `_conform_species`, `_clean_species_for_setting` on strings | uniqueness of sorted permutations, split/join inverse | SpeciesThms |
| C03 | Setting species validates and sorts | `_conform_species`, `_clean_species_for_setting` on strings | uniqueness of sorted permutations, split/join inverse | SpeciesThms |
| C04 | Unavailable species are always reported | `_chk_species`, `drop_species` | list filtering; witness for `"a+"` | SpeciesThms |
| C05 | drop_species returns exactly the remaining plasma | `_chk_species`, `drop_species` | list filtering; witness for `"a+"` | FrameThms |
| C06 | Plasma keeps exactly the plasma columns | `Plasma.set_data`, column selection, scalar thermal speed | list filtering, skipna sums case by case; NaN witness | FrameThms, Tight10Thms, Tight12Thms |
| C07 | Scalar thermal speed is the trace average | `Plasma.set_data`, column selection, scalar thermal speed | list filtering, skipna sums case by case; NaN witness | FrameThms |
| C08 | Missing thermal speed makes the scalar thermal speed missing | `Plasma.set_data`, column selection, scalar thermal speed | list filtering, skipna sums case by case; NaN witness | FrameThms |
| C09 | Setting a plasma's own data back changes nothing | `Plasma.set_data`, column selection, scalar thermal speed | list filtering, skipna sums case by case; NaN witness | FrameThms |
| C10 | Total density and pressure are sums over species | density, mass density, thermal pressure over a species list | induction over the species; skipna sums with NaN cases | PlasmaThms |
| C11 | Missing measurements propagate into totals | density, mass density, thermal pressure over a species list | induction over the species; skipna sums with NaN cases | PlasmaThms |
| C12 | Ideal gas relation per species | temperature, beta, anisotropy, speeds, `afsq` over `Arith` | field/nra on the finite case, induction over species | PlasmaThms |
| C13 | Beta is thermal over magnetic pressure and additive | temperature, beta, anisotropy, speeds, `afsq` over `Arith` | field/nra on the finite case, induction over species | PlasmaExtraThms, PlasmaThms |
| C14 | Anisotropy is pth_per/pth_par | temperature, beta, anisotropy, speeds, `afsq` over `Arith` | field/nra on the finite case, induction over species | PlasmaThms |
| C15 | Centre-of-mass velocity | velocity, dv, pdynamic | weighted means by induction; algebra; witness with three species | PlasmaExtraThms, PlasmaThms |
| C16 | Differential flow is antisymmetric | velocity, dv, pdynamic | weighted means by induction; algebra; witness with three species | PlasmaExtraThms, PlasmaThms |
| C17 | Two-species dynamic pressure is reduced-mass drift pressure | velocity, dv, pdynamic | weighted means by induction; algebra; witness with three species | PlasmaExtraThms, PlasmaThms |
| C18 | Sound speed | temperature, beta, anisotropy, speeds, `afsq` over `Arith` | field/nra on the finite case, induction over species | PlasmaThms |
| C19 | Alfven speed | temperature, beta, anisotropy, speeds, `afsq` over `Arith` | field/nra on the finite case, induction over species | PlasmaThms |
| C20 | Anisotropy factor is additive | temperature, beta, anisotropy, speeds, `afsq` over `Arith` | field/nra on the finite case, induction over species | PlasmaThms |
| C21 | Coulomb logarithm is symmetric | lnlambda, nuc, estimate_electrons | algebra on finite values; refutation witnesses | PlasmaExtraThms, PlasmaThms |
| C22 | Collision frequency pair rules | lnlambda, nuc, estimate_electrons | algebra on finite values; refutation witnesses | PlasmaExtraThms, PlasmaThms |
| C23 | Electron estimate is charge neutral and current free | lnlambda, nuc, estimate_electrons | algebra on finite values; refutation witnesses | FrameThms, PlasmaThms |
| C24 | Electron estimate has T_e = T_p | lnlambda, nuc, estimate_electrons | algebra on finite values; refutation witnesses | PlasmaThms |
| C25 | Auxiliary and spacecraft data stay aligned | set_spacecraft/aux, save/load as step functions on a key-value file | induction over histories of saves and loads | FrameThms |
| C26 | Save then load is the identity | set_spacecraft/aux, save/load as step functions on a key-value file | induction over histories of saves and loads | StoreThms, Tight2Thms |
| C27 | Loading only sees what the last save wrote | set_spacecraft/aux, save/load as step functions on a key-value file | induction over histories of saves and loads | StoreThms |
| C28 | Time-windowed load selects exactly the window | set_spacecraft/aux, save/load as step functions on a key-value file | induction over histories of saves and loads | StoreThms, Tight2Thms |
| C29 | Vector magnitude | Vector magnitude, project, cos_theta, angles | real analysis (sqrt, Cauchy-Schwarz, atan2) | VectorThms |
| C30 | Projection is a Pythagorean decomposition | Vector magnitude, project, cos_theta, angles | real analysis (sqrt, Cauchy-Schwarz, atan2) | VectorThms |
| C31 | Projection on an undefined direction is undefined | Vector magnitude, project, cos_theta, angles | real analysis (sqrt, Cauchy-Schwarz, atan2) | VectorThms |
| C32 | cos_theta is a cosine | Vector magnitude, project, cos_theta, angles | real analysis (sqrt, Cauchy-Schwarz, atan2) | VectorThms |
| C33 | Spherical angles | Vector magnitude, project, cos_theta, angles | real analysis (sqrt, Cauchy-Schwarz, atan2) | VectorThms |
| C34 | Spacecraft configuration is validated | spacecraft name/frame/data checks | case analysis over strings, `upper` lemmas | Tight2Thms, VectorThms |
| C35 | Object equality is an equivalence | dispatch of `__eq__`, `__getattr__`, `__call__` | case analysis; non-termination by a fuel argument | ObjProtoThms |
| C36 | Attribute access terminates | dispatch of `__eq__`, `__getattr__`, `__call__` | case analysis; non-termination by a fuel argument | ObjProtoThms |
| C37 | Elsasser energy balance | Elsasser variables, energies, ratios | algebra, bounds by nra, skipna sums; binary64 | AlfvenThms |
| C38 | Normalised cross helicity and residual energy are bounded | Elsasser variables, energies, ratios | algebra, bounds by nra, skipna sums; binary64 | AlfvenThms |
| C39 | Elsasser and Alfven ratios match the normalised ones | Elsasser variables, energies, ratios | algebra, bounds by nra, skipna sums; binary64 | AlfvenThms |
| C40 | Warm-up rows have undefined energies | Elsasser variables, energies, ratios | algebra, bounds by nra, skipna sums; binary64 | AlfvenThms |
| C41 | Alfven species parsing is canonical | species parsing of the turbulence interface | string canonical forms | SpeciesThms, Tight2Thms |
| C42 | swap_protons orders proton beams | swap_protons, log-normal parameters | per-row case analysis; algebra of exp/ln | Tight1Thms, ToolsThms |
| C43 | Instability classification is total and exclusive | Verscharen2016 thresholds, classification, legend | case analysis, monotonicity of powers | InstabilityThms, Tight1Thms |
| C44 | Instability thresholds are monotone and separated | Verscharen2016 thresholds, classification, legend | case analysis, monotonicity of powers | InstabilityThms, Tight1Thms |
| C45 | Abundance queries are keyed safely | abundance tables, keys, ratios, comments | finite tables and algebra of error propagation | AbundThms, Tight1Thms |
| C46 | Abundance ratios are consistent | abundance tables, keys, ratios, comments | finite tables and algebra of error propagation | AbundThms |
| C47 | Fit selection uses exactly the admissible observations | observation masks, sufficiency, residuals, bounds, make_fit | list filtering; optimiser result universally quantified | FitCoreThms, Tight2Thms |
| C48 | A fit needs at least as many observations as parameters | observation masks, sufficiency, residuals, bounds, make_fit | list filtering; optimiser result universally quantified | FitCoreThms, Tight2Thms, Tight6Thms |
| C49 | Residuals and r-squared | observation masks, sufficiency, residuals, bounds, make_fit | list filtering; optimiser result universally quantified | FitCoreThms |
| C50 | Bounds given by name reach the right parameter | observation masks, sufficiency, residuals, bounds, make_fit | list filtering; optimiser result universally quantified | FitCoreThms |
| C51 | Heaviside step | step functions, composites and hinges | piecewise real analysis | FitFuncsThms |
| C52 | Piecewise composites partition the axis | step functions, composites and hinges | piecewise real analysis | FitFuncsThms |
| C53 | Hinge fits are continuous through the hinge | step functions, composites and hinges | piecewise real analysis | FitFuncsThms |
| C54 | Initial guesses lie on the model for exact data | `p0` of lines, steps, peaks | medians/means of arbitrary exact data, by induction | FitGuessThms, Tight3Thms |
| C55 | Shape of the fitted curves | formulas of all fit functions, their TeX | real analysis; a TeX reader for the formulas | FitShapeThms |
| C56 | Parallel and sequential trend fitting agree | TrendFit | list partition, simulation of the two schedules | TrendFitThms |
| C57 | Bad 1d fits are separated from good ones | TrendFit | list partition, simulation of the two schedules | TrendFitThms |
| C58 | TeX info is always balanced math | TeXinfo strings and cache | string lemmas, decimal rounding, histories | TexInfoThms, Tight1Thms |
| C59 | TeX info reflects the current fit | TeXinfo strings and cache | string lemmas, decimal rounding, histories | TexInfoThms |
| C60 | Cached activity data are refreshed iff stale | activity loader cache | state machine with crash points; histories | LoaderThms, Tight1Thms |
| C61 | Interpolated activity never extrapolates | activity interpolation, cycles, extrema bands, normalisation | interval arithmetic over Z nanoseconds; induction on sorted tables | ActivityThms, Tight1Thms |
| C62 | Solar cycle intervals tile time | activity interpolation, cycles, extrema bands, normalisation | interval arithmetic over Z nanoseconds; induction on sorted tables | SolarThms, Tight4Thms |
| C63 | Epochs are assigned to the unique containing interval | activity interpolation, cycles, extrema bands, normalisation | interval arithmetic over Z nanoseconds; induction on sorted tables | SolarThms |
| C64 | Extrema bands | activity interpolation, cycles, extrema bands, normalisation | interval arithmetic over Z nanoseconds; induction on sorted tables | SolarThms, Tight4Thms |
| C65 | Extrema calculator alternates minima and maxima | ExtremaCalculator | threshold crossings as an alternating list; induction | ExtremaCalcThms, Tight2Thms |
| C66 | Normalised sunspot numbers | activity interpolation, cycles, extrema bands, normalisation | interval arithmetic over Z nanoseconds; induction on sorted tables | ActivityThms |
| C67 | Solar cycle edge assignment | activity interpolation, cycles, extrema bands, normalisation | interval arithmetic over Z nanoseconds; induction on sorted tables | SolarThms |
| C68 | ICME interval end fallback | ICMECAT | interval membership, searchsorted | IcmeThms |
| C69 | contains is interval membership | ICMECAT | interval membership, searchsorted | IcmeThms |
| C70 | ICME filters | ICMECAT | interval membership, searchsorted | IcmeThms, Tight2Thms |
| C71 | Histogram bins partition the data | AggPlot/Hist1D/Hist2D binning, aggregation, normalisation, CDF | counting lemmas for arbitrary edges and data | HistThms |
| C72 | Probability density histograms integrate to one | AggPlot/Hist1D/Hist2D binning, aggregation, normalisation, CDF | counting lemmas for arbitrary edges and data | HistThms |
| C73 | Row/column/total normalisation | AggPlot/Hist1D/Hist2D binning, aggregation, normalisation, CDF | counting lemmas for arbitrary edges and data | HistThms |
| C74 | Colour and count limits only mask | AggPlot/Hist1D/Hist2D binning, aggregation, normalisation, CDF | counting lemmas for arbitrary edges and data | HistThms |
| C75 | Plotted-data selection returns exactly the data in plotted bins | AggPlot/Hist1D/Hist2D binning, aggregation, normalisation, CDF | counting lemmas for arbitrary edges and data | HistThms |
| C76 | CDF construction | AggPlot/Hist1D/Hist2D binning, aggregation, normalisation, CDF | counting lemmas for arbitrary edges and data | HistMoreThms, Tight4Thms |
| C77 | Labels are ordered consistently | labels | string order, longest match, path lemmas | LabelsThms |
| C78 | Ratio labels carry the right units | labels | string order, longest match, path lemmas | LabelsThms |
| C79 | Species translation in labels is longest-match | labels | string order, longest match, path lemmas | LabelsThms |
| C80 | Axis grid size fits n panels | build_ax_array, joint_legend | integer arithmetic, list lemmas | PlotToolsThms |
| C81 | Axis grid never overlaps the colour bar | build_ax_array, joint_legend | integer arithmetic, list lemmas | PlotToolsThms, Tight4Thms |
| C82 | Joint legend has each label once | build_ax_array, joint_legend | integer arithmetic, list lemmas | PlotToolsThms, Tight9Thms |
| C83 | NaN-aware smoothing | nan_gaussian_filter with an arbitrary non-negative kernel | weighted means | PlotToolsThms |
| C84 | Spiral mesh partitions the plane region | SpiralMesh/SpiralPlot2D | invariants of refinement over reals; termination measure | SpiralThms, Tight4Thms |
| C85 | Spiral mesh cells respect the threshold | SpiralMesh/SpiralPlot2D | invariants of refinement over reals; termination measure | SpiralThms |
| C86 | Spiral mesh generation terminates | SpiralMesh/SpiralPlot2D | invariants of refinement over reals; termination measure | SpiralThms |
| C87 | Default spiral edges cover all finite data | SpiralMesh/SpiralPlot2D | invariants of refinement over reals; termination measure | SpiralThms, Tight9Thms |
| C88 | Kinetic energy flux is defined | Ion.kinetic_energy_flux and the fields of Units | the attribute lookup fails | PlasmaThms |
| C89 | A crash during save never mixes two saves | save as a list of file operations with crash points | all prefixes | StoreThms |
| C90 | Calling a vector or tensor returns the component | dispatch of `__eq__`, `__getattr__`, `__call__` | case analysis; non-termination by a fuel argument | ObjProtoThms |
| C91 | Rectifying by polarity keeps energies | polarity rectification, frame changes | algebra, mean of shifted data | AlfvenThms |
| C92 | Fluctuations are Galilean invariant | polarity rectification, frame changes | algebra, mean of shifted data | AlfvenThms |
| C93 | Log-normal parameters | swap_protons, log-normal parameters | per-row case analysis; algebra of exp/ln | Tight6Thms, ToolsThms |
| C94 | Threshold plot legend | Verscharen2016 thresholds, classification, legend | case analysis, monotonicity of powers | InstabilityThms, Tight1Thms |
| C95 | Abundance comments | abundance tables, keys, ratios, comments | finite tables and algebra of error propagation | AbundThms, Tight1Thms |
| C96 | Fitted parameters come from a successful fit | observation masks, sufficiency, residuals, bounds, make_fit | list filtering; optimiser result universally quantified | FitCoreThms, Tight2Thms |
| C97 | Chi-squared per degree of freedom | observation masks, sufficiency, residuals, bounds, make_fit | list filtering; optimiser result universally quantified | FitCoreThms |
| C98 | Step guess | `p0` of lines, steps, peaks | medians/means of arbitrary exact data, by induction | FitGuessThms, Tight3Thms |
| C99 | Moment guess of peaked functions | `p0` of lines, steps, peaks | medians/means of arbitrary exact data, by induction | FitGuessThms, Tight3Thms |
| C100 | One bent line, five parametrizations | formulas of all fit functions, their TeX | real analysis; a TeX reader for the formulas | FitShapeThms |
| C101 | The reported formula is the fitted function | formulas of all fit functions, their TeX | real analysis; a TeX reader for the formulas | FitShapeThms, TexBentThms, TexFormulaThms |
| C102 | Moyal fits asymmetric peaks | formulas of all fit functions, their TeX | real analysis; a TeX reader for the formulas | FitShapeThms |
| C103 | The initial guess is usable | `p0` of lines, steps, peaks | medians/means of arbitrary exact data, by induction | FitShapeThms, Tight3Thms, Tight9Thms |
| C104 | Trend observations | TrendFit | list partition, simulation of the two schedules | Tight1Thms, TrendFitThms |
| C105 | Printed precision | TeXinfo strings and cache | string lemmas, decimal rounding, histories | TexInfoThms, Tight1Thms |
| C106 | Annotation arguments are left alone | TeXinfo strings and cache | string lemmas, decimal rounding, histories | TexInfoThms |
| C107 | TeX names are accepted exactly for parameters | TeXinfo strings and cache | string lemmas, decimal rounding, histories | TexInfoThms |
| C108 | Bands of sunspot number | activity interpolation, cycles, extrema bands, normalisation | interval arithmetic over Z nanoseconds; induction on sorted tables | ActivityThms, Tight1Thms |
| C109 | A crash during a refresh does not destroy the cache | activity loader cache | state machine with crash points; histories | LoaderThms |
| C111 | ICME summary | ICMECAT | interval membership, searchsorted | IcmeThms |
| C112 | Threshold of the extrema calculator | ExtremaCalculator | threshold crossings as an alternating list; induction | ExtremaCalcThms |
| C116 | Label save paths are safe | labels | string order, longest match, path lemmas | LabelsThms |
| C117 | Different comparisons get different file names | labels | string order, longest match, path lemmas | LabelsThms |
| C118 | Combined labels have consistent units | labels | string order, longest match, path lemmas | LabelsThms |
| C119 | Normalised labels are dimensionless | labels | string order, longest match, path lemmas | LabelsThms |
| C120 | Uncertainty labels match their quantity | labels | string order, longest match, path lemmas | LabelsThms |
| C113 | Specific entropy | entropy, heat flux, VDF ratio, Coulomb number, turbulence builder | algebra of powers; frame lookups | PlasmaExtraThms |
| C114 | Heat flux | entropy, heat flux, VDF ratio, Coulomb number, turbulence builder | algebra of powers; frame lookups | PlasmaExtraThms |
| C115 | VDF ratio | entropy, heat flux, VDF ratio, Coulomb number, turbulence builder | algebra of powers; frame lookups | PlasmaExtraThms |
| C121 | Coulomb number | entropy, heat flux, VDF ratio, Coulomb number, turbulence builder | algebra of powers; frame lookups | PlasmaExtraThms |
| C122 | What turbulence is built from | entropy, heat flux, VDF ratio, Coulomb number, turbulence builder | algebra of powers; frame lookups | PlasmaExtraThms |
| C123 | Automatic bins hold all the data | AggPlot/Hist1D/Hist2D binning, aggregation, normalisation, CDF | counting lemmas for arbitrary edges and data | HistMoreThms, Tight9Thms |
| C124 | Selecting data in boxes returns exactly those data | AggPlot/Hist1D/Hist2D binning, aggregation, normalisation, CDF | counting lemmas for arbitrary edges and data | HistMoreThms, Tight9Thms |
| C125 | Histogram borders | AggPlot/Hist1D/Hist2D binning, aggregation, normalisation, CDF | counting lemmas for arbitrary edges and data | HistMoreThms |
| C126 | Projecting 2D counts gives the column sums | AggPlot/Hist1D/Hist2D binning, aggregation, normalisation, CDF | counting lemmas for arbitrary edges and data | HistMoreThms |
| C127 | Data outside the spiral mesh are left out | SpiralMesh/SpiralPlot2D | invariants of refinement over reals; termination measure | SpiralThms |
| C128 | Spiral cells show the aggregate of their own data | SpiralMesh/SpiralPlot2D | invariants of refinement over reals; termination measure | SpiralThms, Tight9Thms |
| C129 | Explicit spiral edges are used as given | SpiralMesh/SpiralPlot2D | invariants of refinement over reals; termination measure | SpiralThms |
| C130 | The spiral cell filter | SpiralMesh/SpiralPlot2D | invariants of refinement over reals; termination measure | SpiralThms |
| C131 | Alfvenic quantities keep their signs and bounds in double precision | the same model functions at binary64 | monotonicity and exactness of Flocq's rounding | Float64Thms |
| C132 | Swapping the proton beams is exact in double precision | the same model functions at binary64 | monotonicity and exactness of Flocq's rounding | Float64Thms |
| C133 | Total densities in double precision | the same model functions at binary64 | monotonicity and exactness of Flocq's rounding | Float64Thms |
| C134 | Two-species quantities keep their symmetry in double precision | the same model functions at binary64 | monotonicity and exactness of Flocq's rounding | Float64Thms |
| C135 | The cosine between vectors is at most one | the same model functions at binary64 | monotonicity and exactness of Flocq's rounding | Float64Thms |
| C136 | Vector data are validated | Vector validation, AlfvenicTurbulence construction | frame lemmas | Tight1Thms |
| C137 | An AlfvenicTurbulence object holds the fluctuations of its inputs | Vector validation, AlfvenicTurbulence construction | frame lemmas | TightAlfvenThms |
| C138 | The polarised version uses the corotating frame | Vector validation, AlfvenicTurbulence construction | frame lemmas | TightAlfvenThms |
| C139 | The plotted residuals are the residuals of the fit | FitFunction plots: residuals, paths, marks, labels | list and string lemmas; kwargs as a heap cell | FitPlotThms, Tight2Thms |
| C140 | The path of a fit plot identifies the plot | FitFunction plots: residuals, paths, marks, labels | list and string lemmas; kwargs as a heap cell | FitPlotThms |
| C141 | A fit plot marks a readable number of points | FitFunction plots: residuals, paths, marks, labels | list and string lemmas; kwargs as a heap cell | FitPlotThms |
| C142 | plot_residuals draws the curves that were asked for | FitFunction plots: residuals, paths, marks, labels | list and string lemmas; kwargs as a heap cell | FitPlotThms |
| C143 | Keyword dictionaries survive a call | FitFunction plots: residuals, paths, marks, labels | list and string lemmas; kwargs as a heap cell | FitPlotThms |
| C144 | Residual labels keep the caller's label | FitFunction plots: residuals, paths, marks, labels | list and string lemmas; kwargs as a heap cell | FitPlotThms |
| C145 | Error windows are centred on the data | FitFunction plots: residuals, paths, marks, labels | list and string lemmas; kwargs as a heap cell | FitPlotThms |
| C146 | The save path says what was plotted | plotting/base, scatter, indicator plots | string paths, row filters, order | PlotBaseThms, Tight2Thms |
| C147 | Exactly the complete rows are plotted | plotting/base, scatter, indicator plots | string paths, row filters, order | PlotBaseThms |
| C148 | Axis limits fit the data | plotting/base, scatter, indicator plots | string paths, row filters, order | PlotBaseThms |
| C149 | Each plot has its own colour bar | plotting/base, scatter, indicator plots | string paths, row filters, order | PlotBaseThms |
| C150 | Scatter plots draw all the data | plotting/base, scatter, indicator plots | string paths, row filters, order | PlotBaseThms |
| C151 | Transposing a plot transposes labels and scales together | plotting/base, scatter, indicator plots | string paths, row filters, order | PlotBaseThms |
| C152 | Indicator plots cover the plasma data | plotting/base, scatter, indicator plots | string paths, row filters, order | PlotBaseThms |
| C153 | Data sampled from a figure lie in the drawn boxes | SelectFromPlot2D as an event machine | induction over events | SelectThms |
| C154 | Data selected elsewhere are not selected again | SelectFromPlot2D as an event machine | induction over events | SelectThms |
| C155 | Each datum is sampled once | SelectFromPlot2D as an event machine | induction over events | SelectThms |
| C156 | Orbit legs partition the data by time | orbit plots | partition by time, counting, dispatch of figures | OrbitsThms |
| C157 | Orbit histograms count each leg | orbit plots | partition by time, counting, dispatch of figures | OrbitsThms |
| C158 | Normalised orbit histograms | orbit plots | partition by time, counting, dispatch of figures | OrbitsThms |
| C159 | Every documented orbit plot can be drawn | orbit plots | partition by time, counting, dispatch of figures | OrbitsThms, Tight4Thms, Tight9Thms |
| C160 | Clipping only moves extreme values | Hist1D/Hist2D plot data: clipping, limits, contours, borders, projections | quantiles, case analysis, counting | HistPlotThms |
| C161 | Colour limits cover the data | Hist1D/Hist2D plot data: clipping, limits, contours, borders, projections | quantiles, case analysis, counting | HistPlotThms |
| C162 | id_data_above_contour labels the data above the contour | Hist1D/Hist2D plot data: clipping, limits, contours, borders, projections | quantiles, case analysis, counting | HistPlotThms |
| C163 | Borders are drawn where they are | Hist1D/Hist2D plot data: clipping, limits, contours, borders, projections | quantiles, case analysis, counting | HistPlotThms |
| C164 | Means per bin and projections | Hist1D/Hist2D plot data: clipping, limits, contours, borders, projections | quantiles, case analysis, counting | HistPlotThms, Tight4Thms |
| C165 | Contour levels suit the normalization | Hist1D/Hist2D plot data: clipping, limits, contours, borders, projections | quantiles, case analysis, counting | HistPlotThms |
| C166 | Opacity falls with the value | Hist1D/Hist2D plot data: clipping, limits, contours, borders, projections | quantiles, case analysis, counting | HistPlotThms |
| C167 | A 1D histogram plot shows its values over its bins | Hist1D/Hist2D plot data: clipping, limits, contours, borders, projections | quantiles, case analysis, counting | HistPlotThms |
| C168 | Time step and frequency labels are unambiguous | labels: time, dates, elements, ions, SSN; TeX grammar | string injectivity; a tokenizer and parser of TeX | MoreLabelsThms |
| C169 | Date labels and their file names | labels: time, dates, elements, ions, SSN; TeX grammar | string injectivity; a tokenizer and parser of TeX | MoreLabelsThms |
| C170 | Elemental abundance labels | labels: time, dates, elements, ions, SSN; TeX grammar | string injectivity; a tokenizer and parser of TeX | MoreLabelsThms |
| C171 | Ion and charge state labels | labels: time, dates, elements, ions, SSN; TeX grammar | string injectivity; a tokenizer and parser of TeX | MoreLabelsThms |
| C172 | Sunspot number and cross-correlation labels | labels: time, dates, elements, ions, SSN; TeX grammar | string injectivity; a tokenizer and parser of TeX | MoreLabelsThms |
| C173 | Activity tables are identified by their keys | SIDC and LISIRD downloads, calendar, interpolation, joint table | calendar arithmetic (Gregorian days), interpolation, joins | DownloadThms |
| C174 | Rows are dated by their calendar date | SIDC and LISIRD downloads, calendar, interpolation, joint table | calendar arithmetic (Gregorian days), interpolation, joins | DownloadThms, Tight6Thms |
| C175 | A sunspot table keeps the published numbers | SIDC and LISIRD downloads, calendar, interpolation, joint table | calendar arithmetic (Gregorian days), interpolation, joins | DownloadThms, Tight6Thms |
| C176 | Missing LISIRD values become NaN | SIDC and LISIRD downloads, calendar, interpolation, joint table | calendar arithmetic (Gregorian days), interpolation, joins | DownloadThms |
| C177 | One row per published time | SIDC and LISIRD downloads, calendar, interpolation, joint table | calendar arithmetic (Gregorian days), interpolation, joins | DownloadThms, Tight6Thms |
| C178 | Interpolating a LISIRD indicator | SIDC and LISIRD downloads, calendar, interpolation, joint table | calendar arithmetic (Gregorian days), interpolation, joins | DownloadThms, Tight6Thms |
| C179 | The sunspot curve on a colour bar | SIDC and LISIRD downloads, calendar, interpolation, joint table | calendar arithmetic (Gregorian days), interpolation, joins | DownloadThms |
| C180 | The joint table of indices | SIDC and LISIRD downloads, calendar, interpolation, joint table | calendar arithmetic (Gregorian days), interpolation, joins | DownloadThms |
| C181 | Fitted parameters by their documented names | named parameters of fit functions | association lists | Tight3Thms |
| C182 | An ion's own quantities | Ion quantities | field | Tight4Thms |
| C183 | Labels spell out what they show | labels: time, dates, elements, ions, SSN; TeX grammar | string injectivity; a tokenizer and parser of TeX | Tight5Thms, Tight9Thms |
| C184 | The TeX of labels is well formed | labels: time, dates, elements, ions, SSN; TeX grammar | string injectivity; a tokenizer and parser of TeX | LabelTexThms |
| C185 | First guesses of truncated Gaussians | guesses of composite, exponential and hinge functions | means/medians/least squares of exact data | MoreFitsThms |
| C186 | A saturating exponential needs its level | guesses of composite, exponential and hinge functions | means/medians/least squares of exact data | MoreFitsThms |
| C187 | Saturation: lines, angle and first guess | guesses of composite, exponential and hinge functions | means/medians/least squares of exact data | MoreFitsThms |
| C188 | HingeSaturation: first guess | guesses of composite, exponential and hinge functions | means/medians/least squares of exact data | MoreFitsThms |
| C189 | Named parameters of the remaining models | named parameters of fit functions | association lists | MoreFitsThms |
| C190 | Uncertainties of fitted parameters | psigma from the Jacobian's SVD, robust chi-square | linear algebra with finite sums; case analysis of the Huber loss | FitSession2Thms, MoreFitsThms |
| C191 | Robust and plain chi-square | psigma from the Jacobian's SVD, robust chi-square | linear algebra with finite sums; case analysis of the Huber loss | FitSession2Thms, MoreFitsThms |
| C192 | The picture of a 2D histogram | arrays handed to pcolormesh and contour (Hist2DPlot.v) | reindexing as list lookup; sums over cells; abstract smoothing kernels | Hist2DPlotThms |
| C193 | Opacity of the cells | arrays handed to pcolormesh and contour (Hist2DPlot.v) | reindexing as list lookup; sums over cells; abstract smoothing kernels | Hist2DPlotThms |
| C194 | Contours follow the picture | arrays handed to pcolormesh and contour (Hist2DPlot.v) | reindexing as list lookup; sums over cells; abstract smoothing kernels | Hist2DPlotThms, Tight7Thms |
| C195 | Labels name the normalisation | histograms and label objects as a heap, events (Hist2DPlot.v) | invariant by induction over histories | Hist2DPlotThms, Tight7Thms |
| C196 | Joint plots add up | joint plot, BetaRPlot | counting | Hist2DJointThms |
| C197 | Beta-anisotropy plots show well-populated cells | joint plot, BetaRPlot | counting | Hist2DJointThms |
| C198 | An adaptive-mesh plot shows its data | SpiralPlot2D with its mesh, groups, limits and filters as a state machine; rectangles and contour points handed to matplotlib (SpiralPlot.v) | invariant by induction over histories; C84, C127, C128 for the mesh; monotone powers of ten | SpiralPlotThms |
| C199 | Opacity and contours of an adaptive-mesh plot | SpiralPlot2D with its mesh, groups, limits and filters as a state machine; rectangles and contour points handed to matplotlib (SpiralPlot.v) | invariant by induction over histories; C84, C127, C128 for the mesh; monotone powers of ten | SpiralPlotThms |
| C200 | New data in an existing adaptive-mesh plot | SpiralPlot2D with its mesh, groups, limits and filters as a state machine; rectangles and contour points handed to matplotlib (SpiralPlot.v) | invariant by induction over histories; C84, C127, C128 for the mesh; monotone powers of ten | SpiralPlotThms |
| C201 | Saving a figure | tools.save with pathlib's suffix rule, figures and disk as a state (SaveFig.v) | induction over histories of calls; string lemmas on the last dot | SaveFigThms |
| C202 | The stamp is in the png only | tools.save with pathlib's suffix rule, figures and disk as a state (SaveFig.v) | induction over histories of calls; string lemmas on the last dot | SaveFigThms |
| C203 | Distinct paths are distinct files | tools.save with pathlib's suffix rule, figures and disk as a state (SaveFig.v) | induction over histories of calls; string lemmas on the last dot | SaveFigThms |
| C204 | A clean report means the committed code | reproducibility.get_git_info and get_citation_string over a model of git (commit, index, working tree, enclosing repository; Repro.v) | induction over histories and over the path | ReproThms, Tight8Thms |
| C205 | Which commit is reported | reproducibility.get_git_info and get_citation_string over a model of git (commit, index, working tree, enclosing repository; Repro.v) | induction over histories and over the path | ReproThms, Tight8Thms |
| C206 | The citation sentence | reproducibility.get_git_info and get_citation_string over a model of git (commit, index, working tree, enclosing repository; Repro.v) | induction over histories and over the path | ReproThms |
| C207 | Drawing only the fits used in the trend | drawing of TrendFit: which rows are selected, options, labels (TrendPlot.v) | rows of a trend as list lookup; C47 for the used observations; induction over option lists | TrendPlotThms |
| C208 | Drawing all 1d fits | drawing of TrendFit: which rows are selected, options, labels (TrendPlot.v) | rows of a trend as list lookup; C47 for the used observations; induction over option lists | Tight11Thms, TrendPlotThms |
| C209 | Which figures say 'In Fit' | drawing of TrendFit: which rows are selected, options, labels (TrendPlot.v) | rows of a trend as list lookup; C47 for the used observations; induction over option lists | Tight11Thms, TrendPlotThms |
| C210 | Options of the trend plots | drawing of TrendFit: which rows are selected, options, labels (TrendPlot.v) | rows of a trend as list lookup; C47 for the used observations; induction over option lists | Tight11Thms, TrendPlotThms |
| C211 | Shared labels of a trend and its 1d fits | drawing of TrendFit: which rows are selected, options, labels (TrendPlot.v) | rows of a trend as list lookup; C47 for the used observations; induction over option lists | TrendPlotThms |
| C212 | The summary of a selection | a SelectFromPlot2D session as a state machine (SelectText.v) | induction over histories of drawing; C153 | SelectTextThms |
| C213 | The text while selecting | a SelectFromPlot2D session as a state machine (SelectText.v) | induction over histories of drawing; C153 | SelectTextThms |
| C214 | The drawn sample lies in the boxes | a SelectFromPlot2D session as a state machine (SelectText.v) | induction over histories of drawing; C153 | SelectTextThms, Tight11Thms |
| C215 | The annotation of a fit | TeXinfo's text of a fit's parameters, numbers as printed decimals (TexReport.v) | substitution lemmas over strings (no match across a border), a grammar of decimal texts with unique meaning | TexReportThms, Tight11Thms |
| C216 | The annotation of a fit simplified for a paper | TeXinfo's text of a fit's parameters, numbers as printed decimals (TexReport.v) | substitution lemmas over strings (no match across a border), a grammar of decimal texts with unique meaning | TexPaperThms |
| C217 | A converged fit is complete | everything a fit object reports, over its history (FitSession.v); optimiser and covariance are arbitrary functions | association lists; induction over histories of calls; case analysis of infinite bounds | FitSessionThms, Tight12Thms |
| C218 | Lines through repeated abscissae | everything a fit object reports, over its history (FitSession.v); optimiser and covariance are arbitrary functions | association lists; induction over histories of calls; case analysis of infinite bounds | FitSessionThms |
| C219 | All reports are about one fit | everything a fit object reports, over its history (FitSession.v); optimiser and covariance are arbitrary functions | association lists; induction over histories of calls; case analysis of infinite bounds | FitSession2Thms |
| C220 | The default start is feasible | everything a fit object reports, over its history (FitSession.v); optimiser and covariance are arbitrary functions | association lists; induction over histories of calls; case analysis of infinite bounds | FitSession2Thms |
| C221 | Projections of orbit histograms | OrbitHist2D.project_1d and OrbitHist1D.make_plot (OrbitProj.v) | the lemmas of C157 and C164 on tables per bin and leg | OrbitProjThms |
| C222 | Lines of an orbit histogram | OrbitHist2D.project_1d and OrbitHist1D.make_plot (OrbitProj.v) | the lemmas of C157 and C164 on tables per bin and leg | OrbitProjThms |
| C223 | Specific entropy of an ion | Ion.specific_entropy; the Tensor object (CoreBits.v) | real arithmetic with units; case analysis | CoreBitsThms |
| C224 | Tensors are made of complete tables | Ion.specific_entropy; the Tensor object (CoreBits.v) | real arithmetic with units; case analysis | CoreBitsThms |
| C225 | Drawn observations | FFPlot.plot_raw, plot_used, plot_fit, plot_raw_used_fit and TeXinfo.annotate_info (FFDraw.v) | induction over the options popped; styles as sets of options | FFDrawThms |
| C226 | Drawn fit | FFPlot.plot_raw, plot_used, plot_fit, plot_raw_used_fit and TeXinfo.annotate_info (FFDraw.v) | induction over the options popped; styles as sets of options | FFDrawThms |
| C227 | All three together | FFPlot.plot_raw, plot_used, plot_fit, plot_raw_used_fit and TeXinfo.annotate_info (FFDraw.v) | induction over the options popped; styles as sets of options | FFDrawThms |
| C228 | Placing the annotation | FFPlot.plot_raw, plot_used, plot_fit, plot_raw_used_fit and TeXinfo.annotate_info (FFDraw.v) | induction over the options popped; styles as sets of options | FFDrawThms |
| C229 | Threshold curves as drawn | StabilityContours.plot_contours (InstabDraw.v) | induction over the curves; the formula of C44; styles as sets of options | InstabDrawThms |
| C230 | Residual curves as drawn | FFPlot.plot_residuals and the formatting of axes (ResidDraw.v) | styles as sets of options; case analysis | ResidDrawThms |
| C231 | Axes of fit plots | FFPlot.plot_residuals and the formatting of axes (ResidDraw.v) | styles as sets of options; case analysis | ResidDrawThms |
| C232 | Fourteen digits in double precision | the model of Plasma.v run at Flocq's binary64 and at the extended reals on the same readings | a relation between the two runs (k roundings away, within 2^-e..2^e) preserved by +, *, /, sqrt; induction over the terms of sums | FloatErrorThms |
| C233 | Alfvenic quantities keep their digits | the model of Alfven.v run at Flocq's binary64 and at the extended reals on the same fluctuations | sums of doubles of ordinary size are multiples of 2^-102, so cancellation is exact or benign; the relation of C232; real analysis for the quotients | FloatAlfvenThms |
| C234 | Histograms in double precision | Hist.v run at binary64 and at the extended reals on the same data | every comparison sees the exact numbers, so bins, counts, limits and maxima coincide; one rounded quotient in [0, 1] | FloatHistThms |
| C235 | Densities integrate to one in double precision | Hist.v run at binary64 | counts and their totals are exact; each bin is its exact share up to k roundings; shares sum to one | FloatDensThms |
| C236 | Sunspot numbers scaled to the unit interval in double precision | Activity.v run at binary64 | comparisons are exact, rounding is monotone, differences of distinct doubles do not vanish | FloatActThms |
| C237 | Magnitudes, unit vectors and cosines in double precision | Plasma.v (vector functions) run at binary64 | signed relative errors through products and quotients; the root of a rounded square is not below its argument; sums of three terms with cancellation; Cauchy-Schwarz | FloatPerpThms, FloatUnitThms |
| C238 | Colours of the stability map | StabColour.v | the band of a value is the integer part of its scaled distance from the lower limit; the map and its inverse are compared entry by entry | StabColourThms |
| C239 | Magnitude of a tensor | CoreBits.v | validation gives three distinct columns, so the lengths differ; sums over Fin values for two columns | CoreBitsThms |
| C240 | The plot of an indicator and its extrema | ExtremaPlot.v on top of ExtremaCalc.v | every extremum comes from a group cut from the data, through trimming and spacing; lookup in data with distinct times; parity of the group number | ExtremaPlotThms |
| C241 | The history of a trend fit | TrendMake.v | induction over the history with the origin of every 1d fit as invariant; permutation of a filter and its complement | TrendMakeThms |
| C242 | Hatching the boxes without data | SelectHatch.v on top of Select.v | the failed boxes by the characterisation of the available data in a box; C153 for the samples | SelectHatchThms |
| C243 | The centre-of-mass velocity in double precision | Plasma.v (velocity) run at binary64 | running error of a sum of signed terms by induction; weights positive; quotient of perturbed sums | FloatComThms |
| C244 | What a sunspot-number object remembers | SidcState.v on top of Activity.v | induction over the history; the specification folds the names asked for | SidcStateThms |

## Trusted base
1. Coq 8.16.1's kernel (and `coqchk`); the standard library's axioms below. No axiom, `Parameter`, section-less
   `Variable`, `Admitted`, or plug-in is used; no functor or module type is defined. Flocq is used for binary64
   and brings no axiom of its own (it uses those of the standard library's reals).
2. Our reading of Python, pandas 2.3, numpy 2 and matplotlib semantics, as written in the comments of the model.
   The code is never run: the correspondence of the model with `/repo` is by reading, function by function.
3. The English statements in `properties.jsonl` and their transcription in the specifications of `*Thms.v`.

## What `Print Assumptions` lists

Collected for the 877 theorems of `MANIFEST.json`; the full list per theorem is in `ASSUMPTIONS.md`.

| theorems | axioms |
|---|---|
| 351 | none (closed under the global context) |
| 273 | `ClassicalDedekindReals.sig_forall_dec`, `ClassicalDedekindReals.sig_not_dec`, `Classical_Prop.classic`, `FunctionalExtensionality.functional_extensionality_dep` |
| 227 | `ClassicalDedekindReals.sig_forall_dec`, `ClassicalDedekindReals.sig_not_dec`, `FunctionalExtensionality.functional_extensionality_dep` |
| 15 | `ClassicalDedekindReals.sig_forall_dec`, `FunctionalExtensionality.functional_extensionality_dep` |
| 11 | `ClassicalDedekindReals.sig_forall_dec` |

`sig_forall_dec`, `sig_not_dec` and `functional_extensionality_dep` come with Coq's constructive-Dedekind real
numbers; `classic` comes through Coq's real analysis (derivatives, `sqrt`, `atan`) and Flocq.

## What is modelled
| part of `/repo/solarwindpy` | model | remarks |
|---|---|---|
| `core/base.py`, `core/plasma.py`, `core/ions.py` | Species, Frame, Plasma, PlasmaExtra, Store, ObjProto | all public methods; HDF5 is a key-value file with an abstract, lossless table format; logging is ignored |
| `core/vector.py`, `core/tensor.py`, `core/spacecraft.py` | Vector, Spacecraft, ObjProto, CoreBits | all methods |
| `core/alfvenic_turbulence.py` | Alfven | rolling mean with `min_periods`; `centered` windows |
| `core/abundances.py`, `core/units_constants.py` | Abund, Plasma | constants are kept as symbols (positive reals) where the value does not matter and as the exact decimal where it does |
| `instabilities/*` | Instability, InstabDraw | drawing of the threshold curves only |
| `fitfunctions/*` | FitCore, FitFuncs, MoreFits, FitPlot, FFDraw, ResidDraw, TrendFit, TrendPlot, TexInfo, TexReport, FitSession, TexFormula | `scipy.optimize.least_squares`, its Jacobian and the SVD of `curve_fit` are arbitrary inputs: the theorems hold for whatever the optimiser returns. `np.polyfit` degree 1 is the least-squares line |
| `solar_activity/*` | Solar, Activity, Loader, Icme, ExtremaCalc, Download | the network is an arbitrary sequence of replies or failures; CSV/JSON parsing is the identity on fields; time is an integer number of nanoseconds |
| `plotting/agg_plot.py, base.py, hist1d.py, hist2d.py, scatter.py, spiral.py, orbits.py, select_data_from_figure.py, tools.py` | Hist, HistPlot, Hist2DPlot, PlotBase, PlotTools, SaveFig, Select, SelectText, Orbits, OrbitProj, Spiral, SpiralPlot | what is computed and handed to matplotlib (coordinates, arrays, limits, labels, paths), not the pixels |
| `plotting/labels/*` | LabelTables, Labels, MoreLabels | the label tables are transcribed completely (generated by `ast`, then read) |
| `tools/__init__.py` | Tools | |
| `reproducibility.py` | Repro | git is modelled as commit, index and working tree of the repositories that enclose a path |

## What is not modelled
* Rendering by matplotlib, interactive event loops, log output, warnings, docstrings, type hints.
* The internals of numpy/scipy/pandas/numba (only their documented effects), including the iterates of the
  optimiser and the convergence of fits; performance; multi-threading inside numba.
* Rounding errors, except in the theorems that say "double precision": the other numeric theorems are about
  the exact real-valued function the code computes, with NaN and infinities handled as IEEE does.
* Memory limits and machine integers (timestamps outside pandas' range).
* Developer scripts (`scripts/`, `tests/`, `setup*`, docs) and example notebooks.
