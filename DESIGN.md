# Formal model of sureal in Rocq (Coq 8.16.1)

The library in `/repo` is read as text. Nothing is executed. The model lives in
`rocq/theories`; every definition cites the file and lines it mirrors.

## 1. Layout

| layer | files | contents |
|---|---|---|
| numbers | `Num.v`, `ExtReal.v`, `NumB64.v`, `NumFloat.v` | a record of number operations without laws; the exact extended-real instance; the binary64 instances |
| python / numpy | `PyBase.v`, `NumPy.v` | exceptions as values, ordered dicts, nan-aware reductions |
| model | `Dataset.v`, `Combine.v`, `PcDataset.v`, `Mocked.v`, `Preproc.v`, `Mos.v`, `Mle.v`, `AP.v`, `PairedComp.v`, `Perf.v`, `Stats.v`, `Tools.v`, `Routine.v`, `Classes.v`, `Experimental.v`, `OtherModels.v`, `Inverse.v`, `Runs.v`, `Names.v`, `Commands.v`, `Demo.v`, `Converter.v`, `Figures.v`, `Panels.v`, `Validation.v`, `Extras.v`, `Script.v` | functions of the package, branch by branch |
| specification | `Spec*.v` | small definitions that do not mention the model's helpers |
| proofs | `*Proofs.v`, `*Witness.v` | lemmas; concrete datasets for examples and refutations |
| results | `Prop*.v` | theorems only, one per claim, each `exact lemma`, with `Print Assumptions` and an `Example` |
| validation | `Validate*.v` | the binary64 instance of the model, run at build time on the package's own test data and compared with the numbers in `/repo/test` |

## 2. Numbers

All numeric model functions are written once, over `Class Num T` (a bare record
of operations: no laws are assumed). Three instances:

* `ef := Fin r | PInf | NInf | NaN` over Coq's real numbers. Arithmetic is IEEE
  arithmetic without rounding, overflow or signed zero: `0/0 = NaN`,
  `x/0 = +-Inf`, comparisons with NaN are false, NaN propagates. The theorems
  are stated at this instance, those about rounding apart. This keeps numpy's NaN conventions (missing
  votes, empty means, `ddof` too large, `x/0`) exact, and idealises rounding.
* `b64`, Flocq's data type of binary64 numbers, every operation rounded to
  nearest, ties to even; exp and log are arguments (C105-C109). No axioms about
  primitive floats are needed. numpy sums long rows pairwise, the model from
  the left: the theorems also cover every order and bracketing.
* Coq's primitive binary64 floats, used only for validation runs.

## 3. Trusted base

* Coq's kernel (and its `vm_compute` for the validation examples).
* What `Print Assumptions` prints under each theorem. Theorems about numbers
  depend on the standard library's axioms for `R`:
  `ClassicalDedekindReals.sig_forall_dec`, `ClassicalDedekindReals.sig_not_dec`,
  `FunctionalExtensionality.functional_extensionality_dep`, and where
  real analysis is used `Classical_Prop.classic`. No axiom is declared here.
* The faithfulness of the model to the Python text (checked by eye, by the
  citations, and by the validation runs).
* External calls are explicit arguments of the model functions, never assumed to
  have properties except where a theorem states a hypothesis about them: random
  number streams, `scipy.stats.chi2.ppf`, `norm.cdf`/`norm.pdf`, `np.linalg.pinv`,
  `scipy.optimize`, `np.linalg.lstsq`, file system, process scheduler.

* `while` loops without a bound are run for `fuel` rounds; `Err Diverges` means
  the rounds did not suffice (it is not a Python exception). Theorems either
  give a sufficient number of rounds or hold for every number.
* Random numbers: a stream indexed by the number of draws made so far
  (`rng`), one stream for uniform and one for normal draws. Theorems hold for
  every stream.

Not modelled: matplotlib (`Figures.v` and `Panels.v` model the data handed to it), printing, wall-clock time, logging, floating point
rounding (in the theorems other than C105-C109), the file formats of the example datasets.

## 4. Plan per property

| id | modelled | how proved |
|---|---|---|
| C01 | `RawDatasetReader.opinion_score_3darray`, observers, repetitions | loop = pointwise description, induction over videos and subjects; spec reads the dataset directly |
| C02 | `_get_list_observers`, `get_unique_sorted_list` | sortedness + permutation uniqueness |
| C03 | the two `_assert_dataset` as ordered checks returning an exception | both directions, case by case |
| C04 | `to_aggregated_dataset` with filters | induction |
| C05 | `to_persubject_dataset` | induction |
| C06 | `to_dictionary_style_dataset` | induction; vote multiset through C01's encoding |
| C07 | `to_combined_overlap_dataset` | induction over the nested loops; spec by per-path vote lists |
| C08 | the same with the alias written back into the first dataset | expected to be false: `_refuted` witness; conditional theorem for non-list votes |
| C09 | `to_pc_dataset`, default options | loop invariant over subjects and pairs |
| C10 | `to_pc_dataset` with stream of draws | proved for rates at most 1; refuted above 1 |
| C11 | the same | invariant; termination through a measure on the remaining rate |
| C12 | in-place conversion of the reader's dataset | expected false for 11 observers: witness; proved for dict-style and for at most 10 observers |
| C13 | per-asset tables | expected false for partially sampled data: witness; proved for fully sampled |
| C14, C15 | `PairedCompDatasetReader.opinion_score_3darray` | invariant on the tensor; alignment refuted in general, proved when asset ids are positions |
| C16 | C09 composed with C14 | composition |
| C17 | `SelectSubjectRawDatasetReader` | dict-style proved; list-style refuted, prefix selections proved |
| C18 | `SelectDisVideoRawDatasetReader` | proved when asset ids are positions; refuted in general |
| C19, C20, C66 | simulated-data readers over arbitrary draws | pointwise |
| C21 | `MockedRawDatasetReader.to_dataset` | proved without repetitions; refuted with |
| C22 | `write_out_dataset` + import as text, parser of the written subset | only the line structure and attribute set are expressed; `repr` is an oracle |
| C23-C26 | `MosModel` | real sums over the present votes |
| C27 | `_get_ref_mos`, differential scoring | algebra |
| C28, C29 | z-scoring, bias removal | algebra of sums |
| C30, C31 | kurtosis rejection | invariants of counting; scale invariance by rewriting each statistic |
| C32 | correlation rejection | refuted with an undefined correlation; proved under defined, non-constant correlations |
| C33 | `run_modeling` wrappers | case analysis |
| C34 | `_postprocess_model_result` | algebra |
| C35 | `_stack_repetitions_along_axis` | index arithmetic |
| C36 | MLE loop, both gradient methods | step equality lifted to the whole run by induction; refuted where a variance becomes 0 |
| C37 | gradient formulas | `derivable_pt_lim` |
| C38-C40 | MLE and projection solvers | invariants of the loop |
| C41-C44 | projection solver | simulation relations between two runs |
| C45 | `weighed_nanmean_2d` | convexity |
| C46 | projection solver with an empty column | refuted |
| C47-C49 | Bradley-Terry update | positivity, MM inequality `ln x <= x - 1`, algebra |
| C50 | Hessian code | derivative computed; refuted |
| C51, C52 | Thurstone/BT likelihood and covariance | algebra; covariance claim refuted against the derivative |
| C53 | `parallel_map` as a transition system | invariant over all schedules |
| C54, C55 | `memoized`, `persist_to_dir` | induction over histories; crash between open and dump refutes |
| C56 | class trees | induction over trees; package's tree transcribed |
| C57, C58 | `main`, `get_cmd_option` | induction on argument list |
| C59 | `convolution_of_two_uniforms` | refuted for shifted locations; proved for locations summing to 0 |
| C60, C61 | `format_output_of_run_subjective_models` | induction; refuted for BT_NR |
| C62-C64 | coverage, RMSE, Pearson, sigmoid | real inequalities |
| C65, C77 | `experimental.py`, draws as an argument | algebra of the shifts; quantiles by interpolation in the sorted replicates; refuted with a subject without votes, for intervals that miss their value and for asset ids that are not positions |
| C76 | results of the MOS, projection and MLE families | lengths through preprocessing and the loops; refuted after a rejection among named observers and for gaps in content ids |
| C75 | SRCC, Kendall | counting ranks; Cauchy-Schwarz on signs of pairs |
| C70 | projection solver | the loop refined to real-valued iterates, field by field |
| C71 | result dictionary of the MLE models | unfolding of the run at its last state; likelihood through C37's specification |
| C74 | Newton-Raphson Bradley-Terry solver | gradient and second derivatives by the sum rules; loop invariant |
| C73 | result dictionary of the MOS family | closed forms of the reductions of C23-C29 put together; likelihood per video |
| C78 | state before the first round of the MLE loop | reductions of the residual array over subjects and contents |
| C79 | `LiveDmosModel` | linear map commutes with the mean; z-scores as in C28; witness with one outlying vote for the range |
| C80 | `LeastSquaresModel` | A P is the projection on the column space (two Penrose conditions), the residuals of the closed form are orthogonal to it; full column rank gives uniqueness |
| C81 | `MaximumLikelihoodEstimationLegacyModel` | each update is identified with a derivative quotient of the log-likelihood; loop by induction on the rounds |
| C82 | `PerSubjectModel`, `to_persubject_dataset` | per-video blocks |
| C83 | `inversefunc`, minimiser as argument | bounded function = real function on the interval, infinite outside; uniqueness by monotonicity, acceptance by the intermediate value theorem |
| C84 | `reconstruction_stats` (local function of `run_subjective_models`) | pairs both there; between/within decomposition of the sum of squares |
| C85 | `run_subjective_models`, `get_sample_stats`; importers, models, draws as arguments, plots left out | endings of strings, monadic maps, C17 for the sample |
| C86 | bookkeeping of `validate_with_synthetic_dataset` | dictionary by type, last result with a percentage |
| C87 | `get_cdf`, `get_pdf`, `histc`, `vectorized_logistic`, `sech` (numpy's histogram in exact arithmetic) | counting in cells; derivative of the logistic distribution function |
| C88 | `ConvolveTwoPdf`; `inverse` and `ceil` as arguments | discrete convolution as mass of a sum, shift less than one step |
| C89 | `get_file_name_*` (with POSIX `os.path.splitext`), `_assert_type_version`, `get_type_version_string`, `get_cozy_type_version_string` | last separator of a string; the regular expression as a matcher |
| C90 | `persist_to_file`; json and the digest as arguments | SHA-1 of text raises in Python 3 |
| C91 | `cmd_deprecated.main`, `__main__.main` after argparse; effects as a trace, operations that may fail as arguments | prefixes of the planned effects; C56, C57, C58 |
| C92 | `demo_p910.py`, `demo.py`, `demo_bt500.py` (csv.reader and float() as arguments), generic in the arithmetic | equality with C39-C46's solver; tables as a relation between rows and votes |
| C93 | `demo_bt500.read_csv_into_3darray` | tables separated by rows with a single comma |
| C94 | `mos_to_sureal.py` after argparse and pandas.read_csv; int() of text and set order as arguments | text relations (stripped, three parts, first number, case); the reader of C01, C03 |
| C95 | the same | the same |
| C96 | the data of the figures of votes in `run_subjective_models` | means per cell (C33's lemmas), sorted histograms (C87) |
| C97 | which figures are drawn | substrings; prefix of the list of figures |
| C98 | `_get_imshow_width_and_height`, `_get_plot_width_and_height`, the grid of panels | integer and real division |
| C99 | `visualize_pc_dataset` | C14: the two cells of a comparison add up to 1 |
| C100 | the figure of quality scores; `np.argsort` as an argument with its contract | induction over results; witness for margins and for bars |
| C101 | the figures of subjects and contents | induction over results and reference videos |
| C102 | the panels of `validate_with_synthetic_dataset` | the loop with panels projects to the loop of C86; each block by the metric and coverage lemmas |
| C103 | `plot_scatter_target_vs_compared_models`; the runs are an argument | position lemmas on `mapM` over `combine`; witness for lists of different lengths |
| C104 | set-up of `validate_with_synthetic_dataset`, accesses of the synthetic and missing-data readers | every access as a function of the generator's state; seeded accesses are constant, unseeded ones refuted by a counting generator |
| C105 | `MosModel._run_modeling` in binary64, whole votes | all partial sums are whole numbers below 2^53 and exact; one rounding in the division |
| C106 | the same, any finite votes | error of rounded sums in any order by induction over the bracketing, `(1+u)^n - 1` |
| C107 | the same, hull of the votes | votes are binary64 numbers and rounding is monotone; refuted for 0.1, 0.1, 0.1 |
| C108 | `_get_mos_and_stats` in binary64: deviations and margins | non-negative rounded sums dominate their terms; a vote that differs is at least 2^-106 away from the rounded mean |
| C109 | the same, votes in another order | C105; refuted for 0.1, 0.2, 0.3 |
| C110 | the `to_*_dataset_file` methods; a file is the dataset written to it | case split over the conversion; refuted for the options of `to_dictionary_style_dataset_file` |
| C111 | `DisplayConfig.show`: directories made and figures saved, in order | numbers have different texts that start with a digit; `os.path.join` is injective in the file |
| C112 | the paths of `SurealConfig` | induction over the components; refuted for an absolute one |
| C113 | `deprecated` with the list of warning filters | computation; refuted by a filter that ignores warnings |
| C114 | `memoized.__get__` | C54 for pairs of object and arguments; refuted by two objects that compare equal |
| C115 | `MyTestCase` | induction over the comparisons |
| C116 | `PerSubjectModel` with `_postprocess_model_result` | number by number; refuted by a dataset with a missing vote |
| C117 | `validate_with_synthetic_dataset_quality_wrapper` of the validation script | draws as vectors in [0, 1) or finite ones; arithmetic on each vector |
| C118 | the same | refuted by a dictionary whose biases do not add up to zero |
| C119 | `run_synthetic_validate_mos`, `run_synthetic_validate_mleco` | induction over the seeds; the validation is a parameter whose results are those of `Runs.v` |
| C120 | the passes of `SubjectMLEModelProjectionSolver._run_modeling` | the logarithm lies below its tangents; weighted means and mean differences minimise the weighted squares |
| C121 | the same | each pass lowers the misfit by at least a multiple of the squared change; the misfit is bounded below |
| C122 | the same | partial derivatives of the misfit as sums over the votes |
| C123 | `resolve_model` (Bradley-Terry), the gradient of the Newton solver | the logarithm of a mean exceeds the mean of the logarithms; the video with the largest ratio of two solutions |
| C124 | `resolve_model` (Bradley-Terry) | gain of a pass, strengths bounded away from 0, a cluster point, and passes that keep ratios within bounds |
| C125 | the same | raising the strength of the videos that were never beaten from outside |
| C126 | `neg_log_likelihood_function`, `resolve_model` (Thurstone) | the tail of the normal distribution; the logarithm of the distribution function lies below its tangents |
| C127 | `run_modeling`, `_get_mos_and_stats`, `_run_modeling` (projection), with no law assumed of the numbers | rows of the stacked array; the loop counter |
| C128 | `_get_mos_and_stats`, `BiasremvMosModel._run_modeling` | closed form of the likelihood of a video; refutation: votes 1, 3 and 3, 3 |
| C129 | `ThurstoneMlePairedCompSubjectiveModel.resolve_model` | compactness of the level sets, derivative bound from C126; no library beyond Reals |
| C130 | the same with 1e-8 / M added | refutation: 1000000000 wins to 1 |
| C131 | `BradleyTerryMlePairedCompSubjectiveModel.resolve_model` | gain of a pass from C124; 0 / 0 on the diagonal of a video without wins |
| C132 | `run_modeling` of MOS, BR_MOS, ZS_MOS, SR_MOS | change of the sums and of the biases; z-score of a value increases with the value; witnesses for repetitions and rejection |
| C133 | `preprocess`, `run_modeling`, `opinion_score_3darray_with` | each step commutes with the reordering (reductions do not depend on the order of their entries, also with infinities), then the datasets |
| C134 | `draw_all`, `figure`, `placed` | every figure function in turn; the keys of all figures are different |
| C135 | `cmap_factory` | the stops one by one |
| C136 | `run_process`, `override`, `timer_interval` | by cases |
| C137 | `convolution_of_two_uniforms` | the function is affine on five intervals; Coquelicot's Riemann integral of each, added |
| C138 | `vectorized_gaussian`, `vectorized_logistic`, `loglikelihood_fcn` with the default density | antiderivatives with limits at both ends (the Gaussian integral of NormalCdf.v); completing the square for the sum |
| C139 | `mle_run_modeling` on two readers | every update of the loop commutes with the reordering; sums over a permuted list of exact numbers |
| C140 | `ap_run_modeling`, `live_run_modeling`, `leg_run_modeling`, `ls_run_modeling`, `per_run_modeling` on two readers | every pass commutes with the reordering; least squares through its closed form (C80) |
| C141 | `mle_run_modeling` on two readers whose votes differ by k*x + t | each step of a pass is homogeneous in the scale (also at infinite values and 0/0); the whole loop and the report follow; refuted for the default gradient and a translation when a vote has variance 0 |
| C142 | `th_run` with and without `zscore_output` | the z-scored run is split into the plain run and the transform; mean, variance and the intervals by algebra on exact reals; the 0/0 case apart |
| C143 | `nr_resolve` with and without `zscore_output` | the norm test of each pass rejects steps that are not finite, so the scores are finite; mean and variance as in C142 |
| C72 | option checks of the conversion to paired comparisons | case split over the assertions; the accepted set is stated as a predicate on the options |

## 5. Simplifications worth knowing

* `SelectDisVideoRawDatasetReader`: the selection is evaluated before the checks
  on reference videos, so when several checks fail at once the model may report
  a different one.
* The `seed` check of the simulated readers is not modelled (the draws are
  arguments). A written dataset file is the list of its assignment statements.
* `ef` has one zero, so the sign of a zero (`np.maximum(0., -0.)`, `1/-0.`) is
  not modelled; dividing by any zero behaves as dividing by `+0.`.
* `Mle.v`: the logistic density always fails in the code (a `zip` object is passed
  where a list is measured), which is what is modelled; gradient method
  `numerical` is modelled but C36/C37 speak of the two analytic ones.
* `PairedComp.v`: `np.linalg.pinv` / `scipy.linalg.pinv`, the SLSQP minimiser and
  `norm.cdf` are arguments. Theorems that need the distribution function assume
  `normal_cdf` (range, symmetry, derivative); `NormalCdf.v` proves that such a
  function exists (with the library Coquelicot, which adds no axioms).
* `Eval.v` holds tactics that evaluate closed rational expressions over `R` by
  reflection (used for concrete witnesses only).
* `AP.v`: `scipy.stats.chi2.ppf` is an argument without properties. The reported
  confidence interval of inconsistencies is stated relative to it.
* `Tools.v`: `parallel_map` is a transition system whose events are steps of the
  parent, a worker storing its result and a worker ending; `is_alive` is exact at
  the moment of the call. Unpicklable results and the manager process dying are
  not modelled. `memoized` takes key equality and hashability as arguments.
  `persist_to_dir` takes the file name, `json.dump` and `json.load` as arguments;
  one process at a time uses the directory, and a dump is flushed when the call
  returns.
* `Classes.v`: classes are numbered class statements; the attribute `TYPE` is
  given as resolved by attribute lookup. The table of the package is transcribed.
* `Perf.v`: `scipy.stats` correlations by their formulas (tau-b for Kendall), on
  inputs without missing values; `np.linalg.lstsq` is an argument. Only the
  default aggregation (mean) of raw ground truth scores is modelled.
* `Routine.v`: a result dictionary is a record of the keys the formatter looks at;
  a column is a list of numbers or `None`, names are strings, and an empty section
  stands for a missing one. `Report.v` says which keys each model's result has;
  `quality_ambiguity` and other keys the formatter ignores are left out. Running
  the models is in `Runs.v`, the data of the figures in `Figures.v`.
* `Figures.v`: what is handed to `imshow`, `scatter`, `bar`, `errorbar`, `plot` and
  `xticks`; titles, grids, legends' layout and colour maps are left out. The margins
  of an estimate have the length of the estimate. Sizes are real numbers.
* `Panels.v`: negative error bars and ranges too wide for `np.arange` raise nothing;
  a model with missing scores is outside the theorems on columns (`scipy` may raise
  or return NaN, depending on its version).
* `Validation.v`: numpy's generator is a state with functions for seeding and drawing;
  seeding with an integer gives a state that depends on the integer only. A model is
  a function of the array it reads (once, `subjective_model.py:154`) and draws nothing.
* `Experimental.v`: `np.random.seed(i)` followed by `choice` is an argument; the
  theorems assume that it returns n indices below n. `np.percentile` is modelled
  for non-empty rows; vectors of different lengths are an error even where numpy
  would broadcast a length of 1. The reader must be one whose `to_dataset` returns
  the dataset it reads.
* `OtherModels.v`: the entries of pandas frames are array entries; pandas' `mean`,
  `std` and `sum` leave missing entries out. `scipy.linalg.pinv` is an argument.
  The final normalisation of per-subject scores applies to the whole array.
* The array of a reader is read once in the model. A random reader of the package
  draws again at every access: the likelihood models read twice (the votes, and
  the plain MOS that gives their start values), so with such a reader their start
  values come from another draw.

## 6. Validation

`Validate*.v` evaluates the model on Coq's binary64 floats with the datasets of
`/repo/test/resource` (transcribed in `ValidateData.v`, with the draws of numpy's
seeded generator where a test uses one) and compares with the numbers asserted in
`/repo/test`. Nothing of the package is run. These are tests of the model, not
proofs; no theorem uses them. Each run is evaluated while its file is compiled
(`Eval vm_compute in`), and the example after it makes the build fail unless the
value is `true`; the kernel sees only the value, so `coqchk` does not repeat the
runs.

| file | compared | tolerance |
|---|---|---|
| `ValidateMos.v` | MOS, DMOS, LIVE_DMOS, the SR/ZS/BR variants, reconstruction statistics; list, dict, partial, outlier and corrupted data | 1e-6 |
| `ValidateAp.v` | both projection solvers: estimates, standard errors, fit | 1e-6 |
| `ValidateLegacy.v` | the early likelihood model: plain, z-scored, missing votes, use_log | 1e-6 |
| `ValidateMle.v` | MLE_CO, MLE_SO; doctests of the density of two uniforms | 6e-5 |
| `ValidatePc.v` | paired comparison reader, both Bradley-Terry solvers, Thurstone | 1e-6; 6e-5 |

Left out of the build: the default MLE mode, which needs 2163 rounds on the test
data (a quarter of an hour of evaluation). A separate run gave every number
asserted in subjective_model_test.py:293-323 to 1e-5 or better (for example
quality 280.20774261, inconsistency 10.164668, log-likelihood -0.88976738).
