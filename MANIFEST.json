{
 "claims": [
  {
   "property": "C01",
   "status": "proved",
   "theorems": [
    "C01_list_array_faithful",
    "C01_list_array_exists",
    "C01_dict_array_faithful",
    "C01_dict_array_exists"
   ],
   "note": ""
  },
  {
   "property": "C02",
   "status": "proved",
   "theorems": [
    "C02_observers_canonical",
    "C02_columns_canonical"
   ],
   "note": ""
  },
  {
   "property": "C03",
   "status": "proved",
   "theorems": [
    "C03_validation_exact"
   ],
   "note": ""
  },
  {
   "property": "C04",
   "status": "proved",
   "theorems": [
    "C04_aggregated",
    "C04_outcome"
   ],
   "note": ""
  },
  {
   "property": "C05",
   "status": "proved",
   "theorems": [
    "C05_persubject",
    "C05_outcome"
   ],
   "note": "zip truncates to the shorter list when the number of score rows differs from the number of videos; the theorem states exactly which blocks are produced."
  },
  {
   "property": "C06",
   "status": "proved",
   "theorems": [
    "C06_votes_kept",
    "C06_dict_unchanged",
    "C06_mos_kept"
   ],
   "note": ""
  },
  {
   "property": "C07",
   "status": "partial",
   "theorems": [
    "C07_combined",
    "C07_exists",
    "C07_tuple_refuted",
    "C07_duplicate_refuted"
   ],
   "note": "Proved for numeric and list votes (not tuples), when a first video whose list votes get appended to has a single match. Refuted otherwise: C07_tuple_refuted (nested list, unreadable), C07_duplicate_refuted (votes accumulate through aliasing). Sharing of list objects between entries of the inputs is not modelled."
  },
  {
   "property": "C08",
   "status": "partial",
   "theorems": [
    "C08_unchanged_iff",
    "C08_unchanged_refuted"
   ],
   "note": "False: refuted by a concrete pair. C08_unchanged_iff gives the exact condition under which the first dataset stays unchanged; the second is only read in the model."
  },
  {
   "property": "C09",
   "status": "partial",
   "theorems": [
    "C09_winner",
    "C09_winner_any",
    "C09_missing_refuted"
   ],
   "note": "Proved for all datasets whose votes are numbers. C09_missing_refuted: a vote recorded as missing (NaN) is compared too, and counted as a tie; C09_winner_any states the exact behaviour for all numbers."
  },
  {
   "property": "C10",
   "status": "partial",
   "theorems": [
    "C10_coherent",
    "C10_refuted"
   ],
   "note": "Holds for sampling rates up to 1 and, at any rate, without coin tosses and noise; refuted for rate 2 with coin tosses."
  },
  {
   "property": "C11",
   "status": "partial",
   "theorems": [
    "C11_zero",
    "C11_subcollection",
    "C11_integer_rate",
    "C11_draws",
    "C11_terminates",
    "C11_subcollection_refuted",
    "C11_terminates_refuted"
   ],
   "note": "Rate 0, integer rates, the draw bound and termination for finite rates are proved; sub-collection without random comparisons. Refuted: sub-collection when ties are decided by coin toss, termination at an infinite rate (which is accepted)."
  },
  {
   "property": "C12",
   "status": "partial",
   "theorems": [
    "C12_unchanged",
    "C12_dict_untouched",
    "C12_list_votes_kept",
    "C12_refuted"
   ],
   "note": "Holds for dict style and up to ten list-style observers; refuted with eleven. Every vote is kept under the name str(i) in all cases."
  },
  {
   "property": "C13",
   "status": "partial",
   "theorems": [
    "C13_by_rank",
    "C13_by_position",
    "C13_refuted"
   ],
   "note": "The options are taken at the ranks among the videos the subject rated (C13_by_rank, exact); these are the positions when nobody skipped a video and asset ids increase. Refuted otherwise."
  },
  {
   "property": "C14",
   "status": "proved",
   "theorems": [
    "C14_antisymmetric",
    "C14_counts"
   ],
   "note": ""
  },
  {
   "property": "C15",
   "status": "partial",
   "theorems": [
    "C15_addresses",
    "C15_refuted"
   ],
   "note": "Holds when asset ids equal positions and the entries of a pair agree; refuted when the order of the videos differs from the asset ids."
  },
  {
   "property": "C16",
   "status": "proved",
   "theorems": [
    "C16_round_trip"
   ],
   "note": ""
  },
  {
   "property": "C17",
   "status": "partial",
   "theorems": [
    "C17_dict",
    "C17_list_partial",
    "C17_list_too_many",
    "C17_list_refuted"
   ],
   "note": "Holds for dict-style datasets. For list-style datasets C17_list_partial gives the exact behaviour (a subject whose index is not below the number of selected subjects comes out empty; more selections than subjects fail); the claim is refuted there."
  },
  {
   "property": "C18",
   "status": "partial",
   "theorems": [
    "C18_positions_partial",
    "C18_by_asset_id",
    "C18_refuted"
   ],
   "note": "Videos are looked up by asset_id (C18_by_asset_id, exact); this is the position when asset ids are positions. Refuted otherwise."
  },
  {
   "property": "C19",
   "status": "proved",
   "theorems": [
    "C19_missing",
    "C19_only_removes"
   ],
   "note": ""
  },
  {
   "property": "C20",
   "status": "proved",
   "theorems": [
    "C20_flip",
    "C20_min",
    "C20_max",
    "C20_mid",
    "C20_constant",
    "C20_shuffle"
   ],
   "note": "'missing votes' hit by min, mid, max and constant also become votes, as the predicates in the theorems say."
  },
  {
   "property": "C21",
   "status": "partial",
   "theorems": [
    "C21_single_partial",
    "C21_repetitions_fail",
    "C21_refuted"
   ],
   "note": "Holds for arrays with one repetition; with more the re-read always fails (C21_repetitions_fail)."
  },
  {
   "property": "C22",
   "status": "proved",
   "theorems": [
    "C22_written",
    "C22_refused"
   ],
   "note": "repr, pformat and the evaluation of a literal are arguments; the only assumption is that evaluating the text gives the value back. The file is the list of its assignment statements."
  },
  {
   "property": "C23",
   "status": "proved",
   "theorems": [
    "C23_mos_mean",
    "C23_mos_exists"
   ],
   "note": ""
  },
  {
   "property": "C24",
   "status": "proved",
   "theorems": [
    "C24_mos_uncertainty"
   ],
   "note": ""
  },
  {
   "property": "C25",
   "status": "proved",
   "theorems": [
    "C25_votes_only",
    "C25_subject_permutation",
    "C25_empty_columns",
    "C25_video_permutation"
   ],
   "note": ""
  },
  {
   "property": "C26",
   "status": "proved",
   "theorems": [
    "C26_mos_affine"
   ],
   "note": ""
  },
  {
   "property": "C27",
   "status": "proved",
   "theorems": [
    "C27_dmos_anchor",
    "C27_dmos_bad_references",
    "C27_dmos_exists"
   ],
   "note": ""
  },
  {
   "property": "C28",
   "status": "proved",
   "theorems": [
    "C28_zscore"
   ],
   "note": ""
  },
  {
   "property": "C29",
   "status": "proved",
   "theorems": [
    "C29_bias_removal",
    "C29_bias_removal_complete"
   ],
   "note": ""
  },
  {
   "property": "C30",
   "status": "proved",
   "theorems": [
    "C30_outlier_rejection"
   ],
   "note": ""
  },
  {
   "property": "C31",
   "status": "proved",
   "theorems": [
    "C31_rejection_scale"
   ],
   "note": ""
  },
  {
   "property": "C32",
   "status": "partial",
   "theorems": [
    "C32_correlation_rejection",
    "C32_flags_refuted",
    "C32_retained_refuted"
   ],
   "note": "False as stated: refuted by two concrete datasets (constant voter; all correlations equal and at most 0.7). C32_correlation_rejection gives the exact behaviour, from which the claim holds when all correlations are defined and one exceeds 0.7 or two differ."
  },
  {
   "property": "C33",
   "status": "proved",
   "theorems": [
    "C33_mle",
    "C33_mle_dscore",
    "C33_mle_announced",
    "C33_conflict",
    "C33_bad_options",
    "C33_announced",
    "C33_announced_biasremv",
    "C33_steps_compose"
   ],
   "note": "All MOS-family classes and all likelihood classes with the check (MLE, MLE_CO, MLE_SO, DMOS_MLE, DMOS_MLE_CO). The projection solver has no such check in the code and accepts the flag."
  },
  {
   "property": "C34",
   "status": "proved",
   "theorems": [
    "C34_final_only_quality",
    "C34_normalize",
    "C34_transform",
    "C34_length",
    "C34_no_options",
    "C34_both",
    "C34_normalize_ranking",
    "C34_transform_ranking"
   ],
   "note": ""
  },
  {
   "property": "C35",
   "status": "proved",
   "theorems": [
    "C35_stack_columns",
    "C35_stack_columns_once",
    "C35_stack_rows",
    "C35_stack_rows_once"
   ],
   "note": ""
  },
  {
   "property": "C36",
   "status": "partial",
   "theorems": [
    "C36_agree_partial",
    "C36_refuted"
   ],
   "note": "Proved for runs whose states are regular (finite values, positive variance wherever there is a vote); refuted in general: with a subject inconsistency of 0 the simplified method divides 0/0 and fails while the original one returns a result."
  },
  {
   "property": "C37",
   "status": "proved",
   "theorems": [
    "C37_bias",
    "C37_inconsistency",
    "C37_ambiguity",
    "C37_quality"
   ],
   "note": "Both analytic gradient methods; each update of a pass is shown to be a damped Newton step on the log-likelihood, and C71 that the same log-likelihood is reported."
  },
  {
   "property": "C38",
   "status": "proved",
   "theorems": [
    "C38_projection",
    "C38_mle",
    "C38_mle_modes"
   ],
   "note": "MLE and projection classes, all options."
  },
  {
   "property": "C39",
   "status": "partial",
   "theorems": [
    "C39_zero_mean_partial",
    "C39_refuted",
    "C39_mle_partial"
   ],
   "note": "Projection: when every subject voted; MLE: when no reported bias is missing. Refuted otherwise (a subject without votes makes np.mean NaN)."
  },
  {
   "property": "C40",
   "status": "proved",
   "theorems": [
    "C40_projection_limit",
    "C40_projection_stops",
    "C40_mle_terminates",
    "C40_mle_stops",
    "C40_legacy"
   ],
   "note": "Projection, MLE and legacy solvers, on any votes."
  },
  {
   "property": "C41",
   "status": "proved",
   "theorems": [
    "C41_translation"
   ],
   "note": ""
  },
  {
   "property": "C42",
   "status": "proved",
   "theorems": [
    "C42_offsets"
   ],
   "note": ""
  },
  {
   "property": "C43",
   "status": "proved",
   "theorems": [
    "C43_permutation"
   ],
   "note": ""
  },
  {
   "property": "C44",
   "status": "proved",
   "theorems": [
    "C44_recovery"
   ],
   "note": ""
  },
  {
   "property": "C45",
   "status": "proved",
   "theorems": [
    "C45_hull"
   ],
   "note": ""
  },
  {
   "property": "C46",
   "status": "partial",
   "theorems": [
    "C46_idle_partial",
    "C46_default",
    "C46_refuted"
   ],
   "note": "Holds with force_subjbias_zeromean off; refuted with the default: all quality scores become NaN."
  },
  {
   "property": "C47",
   "status": "proved",
   "theorems": [
    "C47_iterates",
    "C47_result",
    "C47_outcome",
    "C47_run"
   ],
   "note": ""
  },
  {
   "property": "C48",
   "status": "proved",
   "theorems": [
    "C48_step",
    "C48_result"
   ],
   "note": ""
  },
  {
   "property": "C49",
   "status": "proved",
   "theorems": [
    "C49_fixed"
   ],
   "note": ""
  },
  {
   "property": "C50",
   "status": "partial",
   "theorems": [
    "C50_hessian_partial",
    "C50_result_partial",
    "C50_refuted"
   ],
   "note": "False: off-diagonal entries are n/(p_i+p_j)*2 instead of n/(p_i+p_j)**2 (C50_refuted). C50_hessian_partial says exactly when an entry is right (diagonal always)."
  },
  {
   "property": "C51",
   "status": "proved",
   "theorems": [
    "C51_thurstone_shift",
    "C51_bt_scale",
    "C51_thurstone_relabel",
    "C51_thurstone_result",
    "C51_bt_relabel"
   ],
   "note": "Relabelling of results assumes that the pseudo-inverse (and for Thurstone the minimiser's answer) is relabelled with its argument."
  },
  {
   "property": "C52",
   "status": "partial",
   "theorems": [
    "C52_agree",
    "C52_agree_result",
    "C52_hessian_partial",
    "C52_result_partial",
    "C52_refuted"
   ],
   "note": "The two formulas agree on all inputs. That the matrix is the second derivative matrix is refuted (C52_refuted); C52_hessian_partial says exactly when an off-diagonal entry is right."
  },
  {
   "property": "C53",
   "status": "proved",
   "theorems": [
    "C53_bounded",
    "C53_once",
    "C53_result",
    "C53_progress",
    "C53_zero"
   ],
   "note": "Safety for every schedule, no deadlock from any reachable state; with limit 0 the loop never ends (C53_zero). A worker that dies without storing its result makes the call raise KeyError."
  },
  {
   "property": "C54",
   "status": "partial",
   "theorems": [
    "C54_transparent_partial",
    "C54_evaluations",
    "C54_equal_refuted",
    "C54_unhashable_refuted"
   ],
   "note": "Proved for hashable arguments when equal arguments give equal results. Refuted otherwise: 1 and 1.0 share a cache entry, and an unhashable argument raises TypeError (the fallback branch is unreachable). A call that raises is evaluated again."
  },
  {
   "property": "C55",
   "status": "partial",
   "theorems": [
    "C55_answers_partial",
    "C55_crash",
    "C55_crash_refuted",
    "C55_truncated_refuted",
    "C55_unserializable",
    "C55_tuple_refuted"
   ],
   "note": "Proved for histories in which no crash leaves a truncated file, JSON gives results back and argument texts do not collide. Refuted for a crash after the file was opened (ValueError for ever, or a wrong value), for results JSON cannot write and for tuples."
  },
  {
   "property": "C56",
   "status": "proved",
   "theorems": [
    "C56_found",
    "C56_rejected",
    "C56_package",
    "C56_experimental",
    "C56_sound",
    "C56_diamond_refuted"
   ],
   "note": "All trees, and the package's class table with and without experimental.py. C56_diamond_refuted shows that the claim does not extend to multiple inheritance."
  },
  {
   "property": "C57",
   "status": "proved",
   "theorems": [
    "C57_rating",
    "C57_paired",
    "C57_refused",
    "C57_package_rating",
    "C57_package_paired"
   ],
   "note": "For every class tree, and by explicit names for the package's own table; an empty list of models is refused."
  },
  {
   "property": "C58",
   "status": "proved",
   "theorems": [
    "C58_found",
    "C58_last",
    "C58_absent",
    "C58_exists",
    "C58_out_of_range",
    "C58_last_argument",
    "C58_before"
   ],
   "note": "All ranges inside the argument vector, negative positions included; ranges that leave it raise IndexError as stated in C58_out_of_range, C58_last_argument and C58_before."
  },
  {
   "property": "C59",
   "status": "partial",
   "theorems": [
    "C59_support",
    "C59_plateau",
    "C59_density_partial",
    "C59_flank_error",
    "C59_translation_refuted",
    "C59_nonnegative_refuted"
   ],
   "note": "Support and plateau hold for all locations; the density holds when the locations sum to 0. Refuted otherwise: the flanks use x instead of x-loc1-loc2, so the value is off by |loc1+loc2|/(s1 s2) and can be negative."
  },
  {
   "property": "C60",
   "status": "proved",
   "theorems": [
    "C60_accepted",
    "C60_rejected",
    "C60_values",
    "C60_names",
    "C60_stats"
   ],
   "note": "Any number of results; acceptance, rejection, values, names and statistics, each as an equivalence."
  },
  {
   "property": "C61",
   "status": "partial",
   "theorems": [
    "C61_formatted_partial",
    "C61_newton",
    "C61_refuted"
   ],
   "note": "Proved for the two maximum likelihood models, any number of results at once; the SLSQP oracle must return a vector of the length of its start. Refuted for Newton-Raphson: its standard deviation is None and every result raises TypeError."
  },
  {
   "property": "C62",
   "status": "proved",
   "theorems": [
    "C62_value",
    "C62_positions_exist",
    "C62_range",
    "C62_accepts",
    "C62_mismatch",
    "C62_widening"
   ],
   "note": "Any real, infinite or missing entries; widening for finite margins. Empty vectors raise ZeroDivisionError (C62_accepts)."
  },
  {
   "property": "C63",
   "status": "partial",
   "theorems": [
    "C63_rmse",
    "C63_nonnegative",
    "C63_symmetric",
    "C63_zero",
    "C63_triangle",
    "C63_pcc_partial",
    "C63_pcc_affine",
    "C63_pcc_constant",
    "C63_pcc_refuted",
    "C63_raw",
    "C63_lengths"
   ],
   "note": "RMSE: metric axioms on all vectors. Pearson: range for vectors with spread, invariance for all vectors. Refuted as stated for constant vectors (NaN) and single points (ValueError)."
  },
  {
   "property": "C64",
   "status": "proved",
   "theorems": [
    "C64_formula",
    "C64_range",
    "C64_increasing",
    "C64_decreasing",
    "C64_lengths",
    "C64_used"
   ],
   "note": "For every least-squares routine; the data passed to it are also characterised."
  },
  {
   "property": "C65",
   "status": "partial",
   "theorems": [
    "C65_subjects_partial",
    "C65_videos_partial",
    "C65_lost",
    "C65_silent_refuted"
   ],
   "note": "Subjects and videos, every replicate, together with the reported intervals: proved where the biases (scores) involved are numbers. C65_lost and C65_silent_refuted: with a subject who did not vote every score of the replicate becomes NaN."
  },
  {
   "property": "C66",
   "status": "proved",
   "theorems": [
    "C66_generative",
    "C66_noiseless",
    "C66_logistic"
   ],
   "note": ""
  },
  {
   "property": "C67",
   "status": "partial",
   "theorems": [
    "C67_central_kept",
    "C67_unanimous_counted",
    "C67_agreement_refuted"
   ],
   "note": "The first half holds; the second half is refuted: votes for a unanimous video count as outliers to both sides."
  },
  {
   "property": "C68",
   "status": "partial",
   "theorems": [
    "C68_columns_kept",
    "C68_columns_refuted"
   ],
   "note": "Holds up to ten observers; refuted with eleven."
  },
  {
   "property": "C69",
   "status": "partial",
   "theorems": [
    "C69_corrupt_data",
    "C69_fills_missing_refuted"
   ],
   "note": "Everything but the last clause holds; C69_fills_missing_refuted: missing entries become votes."
  },
  {
   "property": "C70",
   "status": "proved",
   "theorems": [
    "C70_total",
    "C70_default",
    "C70_result",
    "C70_poisoned"
   ],
   "note": ""
  },
  {
   "property": "C71",
   "status": "proved",
   "theorems": [
    "C71_report",
    "C71_defaults"
   ],
   "note": "For runs without normalize_final/transform_final."
  },
  {
   "property": "C72",
   "status": "proved",
   "theorems": [
    "C72_rejected",
    "C72_accepted"
   ],
   "note": ""
  },
  {
   "property": "C74",
   "status": "proved",
   "theorems": [
    "C74_gradient",
    "C74_hessian",
    "C74_result",
    "C74_last",
    "C74_zscore"
   ],
   "note": ""
  },
  {
   "property": "C75",
   "status": "proved",
   "theorems": [
    "C75_srcc",
    "C75_kendall",
    "C75_srcc_monotone",
    "C75_kendall_monotone",
    "C75_agreement",
    "C75_opposition"
   ],
   "note": ""
  },
  {
   "property": "C76",
   "status": "partial",
   "theorems": [
    "C76_mos",
    "C76_projection_partial",
    "C76_likelihood_partial",
    "C76_rejection_refuted",
    "C76_gap_refuted"
   ],
   "note": "MOS family: always. Projection and MLE: exact conditions. Refuted for the projection model after a rejection among named observers and for maximum likelihood with a gap in the content ids."
  },
  {
   "property": "C77",
   "status": "partial",
   "theorems": [
    "C77_final",
    "C77_outside_refuted",
    "C77_asset_ids_refuted"
   ],
   "note": "The reported values are proved; refuted: a reported score can lie outside its interval, and with asset ids that are not positions bootstrapping over videos raises KeyError."
  },
  {
   "property": "C73",
   "status": "proved",
   "theorems": [
    "C73_report"
   ],
   "note": "Every class of the family; final scores neither normalised nor transformed. Note that a video without spread contributes 0 to the log-likelihood while its votes are counted."
  },
  {
   "property": "C78",
   "status": "proved",
   "theorems": [
    "C78_start"
   ],
   "note": "Every class; the mean is taken over the votes as read, the residuals over the votes after preprocessing."
  },
  {
   "property": "C79",
   "status": "partial",
   "theorems": [
    "C79_conflict",
    "C79_live",
    "C79_plain",
    "C79_range_refuted"
   ],
   "note": "Everything but the last sentence; C79_range_refuted: a vote more than three standard deviations from the subject's mean gives a score outside [0, 100]."
  },
  {
   "property": "C80",
   "status": "proved",
   "theorems": [
    "C80_complete",
    "C80_missing",
    "C80_rejection",
    "C80_repetitions"
   ],
   "note": "For every matrix routine that satisfies two of the Penrose conditions; existence of such a matrix is proved for every size."
  },
  {
   "property": "C81",
   "status": "proved",
   "theorems": [
    "C81_start",
    "C81_pass",
    "C81_run",
    "C81_unrated",
    "C81_rejection",
    "C81_repetitions"
   ],
   "note": "Both parameterisations. The log-likelihood is written down independently; a Newton step is defined by first and second derivatives."
  },
  {
   "property": "C82",
   "status": "partial",
   "theorems": [
    "C82_scores",
    "C82_dataset",
    "C82_repeated",
    "C82_repeated_refuted"
   ],
   "note": "Scores: always. Dataset: exact conditions for votes without repetition, and lists of repeated votes. Refuted for repeated votes recorded by name (TypeError)."
  },
  {
   "property": "C83",
   "status": "proved",
   "theorems": [
    "C83_call",
    "C83_inverse",
    "C83_values_accepted",
    "C83_only_values_accepted",
    "C83_arguments",
    "C83_domain_order",
    "C83_image_order",
    "C83_flat",
    "C83_end_raises",
    "C83_monotone_check_refuted"
   ],
   "note": "scipy's minimiser is an argument. C83_monotone_check_refuted records that a function which is not monotone is not refused (only two points are compared)."
  },
  {
   "property": "C84",
   "status": "proved",
   "theorems": [
    "C84_shape",
    "C84_few",
    "C84_values",
    "C84_perfect",
    "C84_mos"
   ],
   "note": "C84_mos covers all thirteen MOS classes with all keyword arguments."
  },
  {
   "property": "C85",
   "status": "partial",
   "theorems": [
    "C85_run",
    "C85_raise",
    "C85_mos_partial",
    "C85_single_vote_refuted",
    "C85_samples",
    "C85_whole",
    "C85_fraction",
    "C85_sample_named",
    "C85_sample_list_partial",
    "C85_sample_list_refuted",
    "C85_small_fraction",
    "C85_observers_refuted"
   ],
   "note": "False as stated in three places: C85_single_vote_refuted (a dataset the model accepts ends in ValueError; C85_mos_partial says exactly when), C85_sample_list_refuted (list-style votes of drawn subjects are lost; C85_sample_list_partial says which; votes with names: C85_sample_named), C85_observers_refuted (all observers are listed). C85_small_fraction: a fraction below one subject never has results."
  },
  {
   "property": "C86",
   "status": "partial",
   "theorems": [
    "C86_probability",
    "C86_entry",
    "C86_total",
    "C86_raise",
    "C86_attribution_refuted"
   ],
   "note": "C86_entry and C86_total are exact; the last sentence is false when two models have the same type (C86_attribution_refuted)."
  },
  {
   "property": "C87",
   "status": "proved",
   "theorems": [
    "C87_cdf",
    "C87_monotone",
    "C87_pdf",
    "C87_mass",
    "C87_bins",
    "C87_nonfinite",
    "C87_empty",
    "C87_histc",
    "C87_logistic",
    "C87_logistic_total"
   ],
   "note": "Numbers of cells as integers; data in the extended reals."
  },
  {
   "property": "C88",
   "status": "partial",
   "theorems": [
    "C88_grid",
    "C88_line",
    "C88_outside",
    "C88_nonneg",
    "C88_mass",
    "C88_swap",
    "C88_calls",
    "C88_refuse",
    "C88_symmetric_refuted"
   ],
   "note": "The last clause is false (C88_symmetric_refuted): the grid is not symmetric, so the result is shifted by up to one step (C88_grid says exactly how). The numerical inverse and ceil are arguments."
  },
  {
   "property": "C89",
   "status": "partial",
   "theorems": [
    "C89_name",
    "C89_stem",
    "C89_plain",
    "C89_every",
    "C89_extension_refuted",
    "C89_hidden_refuted",
    "C89_version",
    "C89_version_refuted",
    "C89_unique_partial",
    "C89_cozy",
    "C89_unique_refuted"
   ],
   "note": "File names and versions: exact. False as stated: C89_extension_refuted (dots in directories), C89_hidden_refuted, C89_version_refuted (a line feed at the end is accepted), C89_unique_refuted (versions with V; C89_unique_partial without; the longer form is unique for all accepted versions, C89_cozy)."
  },
  {
   "property": "C90",
   "status": "partial",
   "theorems": [
    "C90_decorate",
    "C90_calls",
    "C90_value_refuted"
   ],
   "note": "False: hashlib.sha1 is given text, so every call raises TypeError and nothing is evaluated or written (C90_calls for all histories, C90_value_refuted); what decorating does is C90_decorate."
  },
  {
   "property": "C91",
   "status": "proved",
   "theorems": [
    "C91_usage",
    "C91_unknown",
    "C91_raises",
    "C91_runs",
    "C91_plan_exists",
    "C91_option_value",
    "C91_plots",
    "C91_listed",
    "C91_accepted",
    "C91_main_refused",
    "C91_main_raises",
    "C91_main_unformatted",
    "C91_main_runs",
    "C91_main_plots"
   ],
   "note": "run_subjective_models, formatting, json and the file system are arguments that may fail; argparse is not modelled."
  },
  {
   "property": "C92",
   "status": "proved",
   "theorems": [
    "C92_read2",
    "C92_read2_total",
    "C92_read2_error",
    "C92_same",
    "C92_once",
    "C92_program2",
    "C92_program3",
    "C92_package",
    "C92_outcome",
    "C92_outcome3",
    "C92_zero_mean",
    "C92_zero_mean3",
    "C92_recovery"
   ],
   "note": "csv.reader and float() of a cell are arguments; the printing in the programs is not modelled."
  },
  {
   "property": "C93",
   "status": "partial",
   "theorems": [
    "C93_read3",
    "C93_size_refuted"
   ],
   "note": "The second clause is false (C93_size_refuted): numpy copies a repetition table with one row to every PVS. The first clause is C93_read3."
  },
  {
   "property": "C94",
   "status": "proved",
   "theorems": [
    "C94_result",
    "C94_total",
    "C94_reader",
    "C94_no_column",
    "C94_malformed",
    "C94_no_number",
    "C94_no_ratings"
   ],
   "note": "pandas.read_csv is not modelled (the table is the input), int() of text is an argument; text is ASCII."
  },
  {
   "property": "C95",
   "status": "partial",
   "theorems": [
    "C95_rows_partial",
    "C95_rows_refuted",
    "C95_ids_partial",
    "C95_ids_refuted",
    "C95_stdout_partial",
    "C95_stdout_refuted",
    "C95_exact_refuted"
   ],
   "note": "False in four ways: C95_rows_refuted (a second row of a PVS is lost; C95_rows_partial without one), C95_ids_refuted (two databases share ids; C95_ids_partial if the numbers differ), C95_stdout_refuted (a line for every unknown column, also on standard output; C95_stdout_partial says exactly when), C95_exact_refuted (fractions dropped, a column Std is taken for a subject)."
  },
  {
   "property": "C96",
   "status": "proved",
   "theorems": [
    "C96_raw_scores",
    "C96_counts",
    "C96_counts_per_subject",
    "C96_minus_scores",
    "C96_minus_scores_and_biases",
    "C96_versus"
   ],
   "note": "matplotlib is not modelled: the theorems are about the data handed to it."
  },
  {
   "property": "C97",
   "status": "partial",
   "theorems": [
    "C97_drawn",
    "C97_all",
    "C97_none",
    "C97_text_refuted",
    "C97_list_refuted"
   ],
   "note": "The clauses about texts and about 'all' in a list are false (C97_text_refuted: a text is searched for the names, so raw_counts_per_subject also draws raw_counts; C97_list_refuted). C97_drawn says what is drawn for every argument."
  },
  {
   "property": "C98",
   "status": "partial",
   "theorems": [
    "C98_image",
    "C98_refuted",
    "C98_plot",
    "C98_grid"
   ],
   "note": "The bound of 102 inches is false (C98_refuted: a width between 100 and 200 is divided by 1); the bound is 202 (C98_image)."
  },
  {
   "property": "C99",
   "status": "proved",
   "theorems": [
    "C99_rate",
    "C99_reader"
   ],
   "note": "For all arrays with two-sided comparisons (C99_rate), and for every array of the reader (C99_reader)."
  },
  {
   "property": "C100",
   "status": "partial",
   "theorems": [
    "C100_result",
    "C100_many",
    "C100_first",
    "C100_nothing",
    "C100_type",
    "C100_margins",
    "C100_margins_refuted",
    "C100_bars",
    "C100_bars_refuted"
   ],
   "note": "Two clauses are false: with sorting the margins are not reordered (C100_margins_refuted; C100_margins without sorting), and the bars of three models overlap (C100_bars_refuted; C100_bars for two). The rest is proved for every np.argsort with its contract."
  },
  {
   "property": "C101",
   "status": "proved",
   "theorems": [
    "C101_subjects",
    "C101_mismatch",
    "C101_contents",
    "C101_contents_error"
   ],
   "note": "For results whose vectors have one number per subject (content)."
  },
  {
   "property": "C102",
   "status": "proved",
   "theorems": [
    "C102_figures",
    "C102_results",
    "C102_no_axes",
    "C102_cut",
    "C102_refused",
    "C102_empty"
   ],
   "note": ""
  },
  {
   "property": "C103",
   "status": "partial",
   "theorems": [
    "C103_figure",
    "C103_pairs",
    "C103_no_compared",
    "C103_refused",
    "C103_refuted",
    "C103_arrays"
   ],
   "note": "False as stated: models are paired by place and the rest of the longer list is run but not drawn (C103_refuted). For models of the same place all is proved."
  },
  {
   "property": "C104",
   "status": "partial",
   "theorems": [
    "C104_seeded",
    "C104_reproducible",
    "C104_missing",
    "C104_drawn",
    "C104_noiseless",
    "C104_total",
    "C104_refused",
    "C104_fresh",
    "C104_fresh_missing",
    "C104_refuted"
   ],
   "note": "False as stated: every access of the reader draws again, so without an integer seed, and with the logistic reader whatever the seed, models and file have different votes (C104_refuted). True for the normal reader with an integer seed (C104_seeded, C104_reproducible) and without noise (C104_noiseless); with missing votes always the same votes before the removal (C104_missing)."
  },
  {
   "property": "C105",
   "status": "proved",
   "theorems": [
    "C105_rounded_mean",
    "C105_order",
    "C105_any_order"
   ],
   "note": "Binary64 arithmetic of Flocq with any exp and log; numpy's pairwise summation is covered by C105_any_order."
  },
  {
   "property": "C106",
   "status": "proved",
   "theorems": [
    "C106_error",
    "C106_any_order"
   ],
   "note": "Binary64 arithmetic of Flocq with any exp and log."
  },
  {
   "property": "C107",
   "status": "partial",
   "theorems": [
    "C107_whole",
    "C107_refuted"
   ],
   "note": "False as stated: the mean of three votes 0.1 is above 0.1 in binary64 (C107_refuted). True for whole votes (C107_whole)."
  },
  {
   "property": "C108",
   "status": "partial",
   "theorems": [
    "C108_spread",
    "C108_refuted"
   ],
   "note": "False as stated: three votes 0.1 have a standard deviation above 0 (C108_refuted). All else is proved for all finite votes without overflow, and the zeros exactly for whole votes (C108_spread)."
  },
  {
   "property": "C109",
   "status": "partial",
   "theorems": [
    "C109_whole",
    "C109_refuted"
   ],
   "note": "False as stated: 0.1, 0.2, 0.3 (C109_refuted). True for whole votes (C109_whole)."
  },
  {
   "property": "C110",
   "status": "partial",
   "theorems": [
    "C110_aggregated",
    "C110_persubject",
    "C110_pc",
    "C110_combined",
    "C110_dictionary_partial",
    "C110_dictionary_refuted"
   ],
   "note": "False as stated: to_dictionary_style_dataset_file drops its options (C110_dictionary_refuted). Proved for the four other methods, and for this one without options or for votes stored by name."
  },
  {
   "property": "C111",
   "status": "proved",
   "theorems": [
    "C111_saved",
    "C111_no_format",
    "C111_window"
   ],
   "note": "A file name for a format of None is a TypeError (C111_no_format)."
  },
  {
   "property": "C112",
   "status": "partial",
   "theorems": [
    "C112_below_partial",
    "C112_absolute_refuted"
   ],
   "note": "False as stated: an absolute component replaces the directory (C112_absolute_refuted). True for relative components, as a prefix of the text."
  },
  {
   "property": "C113",
   "status": "partial",
   "theorems": [
    "C113_transparent_partial",
    "C113_filters_refuted"
   ],
   "note": "False as stated: the filters change (C113_filters_refuted). The outcome, the warning, and what becomes of the filters are proved."
  },
  {
   "property": "C114",
   "status": "partial",
   "theorems": [
    "C114_own_values_partial",
    "C114_per_object_refuted"
   ],
   "note": "False as stated: objects that compare equal share entries (C114_per_object_refuted). True when equal objects are interchangeable."
  },
  {
   "property": "C115",
   "status": "proved",
   "theorems": [
    "C115_collects",
    "C115_verdict",
    "C115_refused"
   ],
   "note": "Comparisons with a finite delta or with places; both together are a TypeError (C115_refused)."
  },
  {
   "property": "C116",
   "status": "partial",
   "theorems": [
    "C116_transform_partial",
    "C116_normalize_partial",
    "C116_missing",
    "C116_normalize_refuted",
    "C116_transform_refuted"
   ],
   "note": "False as stated: one missing vote makes all normalised scores NaN (C116_missing, C116_normalize_refuted), and a polynomial with only a constant gives missing votes a score (C116_transform_refuted). Proved for complete votes, and for polynomials with another term."
  },
  {
   "property": "C117",
   "status": "proved",
   "theorems": [
    "C117_ambiguity",
    "C117_observer",
    "C117_reproducible",
    "C117_refused",
    "C117_bootstrap"
   ],
   "note": "Draws are finite and uniform ones lie in [0, 1); the validation itself is a parameter."
  },
  {
   "property": "C118",
   "status": "partial",
   "theorems": [
    "C118_dictionary_partial",
    "C118_dictionary_refuted"
   ],
   "note": "False as stated: with force_synth_subjbias_zeromean, the default, the biases in the caller's dictionary are changed in place (C118_dictionary_refuted). Proved: exactly that entry changes, and only if the biases do not add up to zero or are not to."
  },
  {
   "property": "C119",
   "status": "proved",
   "theorems": [
    "C119_mos",
    "C119_mleco",
    "C119_reproducible"
   ],
   "note": "The validation is a parameter whose results are those of validate_results (Runs.v)."
  },
  {
   "property": "C120",
   "status": "proved",
   "theorems": [
    "C120_descent",
    "C120_result"
   ],
   "note": "Exact arithmetic."
  },
  {
   "property": "C121",
   "status": "proved",
   "theorems": [
    "C121_converges",
    "C121_passes"
   ],
   "note": "Exact arithmetic; the code stops after 1000 passes even if the threshold is not met (C40)."
  },
  {
   "property": "C122",
   "status": "proved",
   "theorems": [
    "C122_stationary"
   ],
   "note": "Exact arithmetic; every subject has a vote."
  },
  {
   "property": "C123",
   "status": "proved",
   "theorems": [
    "C123_maximum",
    "C123_unique",
    "C123_newton"
   ],
   "note": "Exact arithmetic."
  },
  {
   "property": "C124",
   "status": "proved",
   "theorems": [
    "C124_converges",
    "C124_ends"
   ],
   "note": "Exact arithmetic; the pseudo-inverse is assumed to return."
  },
  {
   "property": "C125",
   "status": "proved",
   "theorems": [
    "C125_exists"
   ],
   "note": "Exact arithmetic."
  },
  {
   "property": "C126",
   "status": "proved",
   "theorems": [
    "C126_maximum",
    "C126_unique",
    "C126_objective",
    "C126_gap"
   ],
   "note": "The maximum is that of the likelihood; the number added to each probability makes the objective of the code differ from it, by the bound stated."
  },
  {
   "property": "C127",
   "status": "proved",
   "theorems": [
    "C127_local",
    "C127_lengths",
    "C127_projection",
    "C127_projection_lengths"
   ],
   "note": "Holds for binary64; the order in which numpy adds is that of the model."
  },
  {
   "property": "C128",
   "status": "partial",
   "theorems": [
    "C128_shift_partial",
    "C128_order_partial",
    "C128_closed_partial",
    "C128_unit_refuted"
   ],
   "note": "False as stated: a video whose votes are all the same has standard deviation 0 and its NaN terms are dropped from the sum of the likelihood but not from the number of votes; C128_unit_refuted gives votes where MOS is preferred on a scale from 1 to 5 and BR_MOS on a scale from 0 to 1. Proved when no video has votes that are all the same, before and after the removal of bias."
  },
  {
   "property": "C129",
   "status": "proved",
   "theorems": [
    "C129_exists"
   ],
   "note": ""
  },
  {
   "property": "C130",
   "status": "partial",
   "theorems": [
    "C130_needed_partial",
    "C130_exists_partial",
    "C130_exists_refuted"
   ],
   "note": "False as stated: with 1000000000 wins to 1 the objective decreases without attaining a least value although each video won (C130_exists_refuted). Proved: the condition is needed, and it suffices when no observed outcome is rarer than one comparison in 26."
  },
  {
   "property": "C131",
   "status": "proved",
   "theorems": [
    "C131_ends",
    "C131_fails",
    "C131_run",
    "C131_arbitrary"
   ],
   "note": ""
  },
  {
   "property": "C132",
   "status": "partial",
   "theorems": [
    "C132_mos",
    "C132_bias",
    "C132_zscore_partial",
    "C132_zscore_refuted",
    "C132_rejection_refuted"
   ],
   "note": "True for MOS (exact) and BR_MOS, and for ZS_MOS if the subject voted once for the video and has different votes before and after. False for ZS_MOS with repetitions (C132_zscore_refuted) and for SR_MOS (C132_rejection_refuted: the raised vote makes its subject an outlier)."
  },
  {
   "property": "C133",
   "status": "proved",
   "theorems": [
    "C133_reordering",
    "C133_lists",
    "C133_dicts"
   ],
   "note": "Stated for any reader (C133_reordering) and for datasets of lists and of dicts (C133_lists, C133_dicts); votes need not be finite. In exact arithmetic: binary64 sums depend on the order."
  },
  {
   "property": "C134",
   "status": "partial",
   "theorems": [
    "C134_placed_partial",
    "C134_per_subject",
    "C134_once_partial",
    "C134_prefix_refuted",
    "C134_half_refuted",
    "C134_once_refuted"
   ],
   "note": "False as stated: the counts per subject look for a key without prefix (C134_prefix_refuted), the axes of the biases alone are not used (C134_half_refuted), and the residual images of several results go on the same axes (C134_once_refuted). True for all other panels when the axes of biases and inconsistencies come together (C134_placed_partial, C134_per_subject), and with at most one result no axes are used twice (C134_once_partial)."
  },
  {
   "property": "C135",
   "status": "partial",
   "theorems": [
    "C135_known",
    "C135_other",
    "C135_proper",
    "C135_mirrored_partial",
    "C135_mirrored_refuted"
   ],
   "note": "The stops of red2green2 are not symmetric: red at 0.15, green at 0.9 (C135_mirrored_refuted). The rest holds (C135_known, C135_other, C135_proper), and red2green is symmetric (C135_mirrored_partial)."
  },
  {
   "property": "C136",
   "status": "proved",
   "theorems": [
    "C136_ran",
    "C136_code",
    "C136_start",
    "C136_override",
    "C136_timer"
   ],
   "note": "The exit code and the exception of starting the process come from outside."
  },
  {
   "property": "C137",
   "status": "partial",
   "theorems": [
    "C137_mass",
    "C137_square",
    "C137_density_partial",
    "C137_mean_refuted",
    "C137_mean_off"
   ],
   "note": "The mass is 1 for all locations (C137_mass), and for locations adding up to 0 the function is the convolution integral (C137_density_partial). The mean square is (s1^2 + s2^2) / 12 - (loc1 + loc2)^2 (C137_square). The mean is 0 for all locations, since the flanks use x in place of x - loc1 - loc2; so it is wrong whenever loc1 + loc2 is not 0 (C137_mean_off, C137_mean_refuted)."
  },
  {
   "property": "C138",
   "status": "proved",
   "theorems": [
    "C138_gaussian",
    "C138_sum",
    "C138_vote",
    "C138_logistic",
    "C138_unique"
   ],
   "note": "Integrals over longer and longer intervals (Coquelicot) tend to the value; it is unique (C138_unique). C138_sum and C138_vote: the density used is the convolution of the two normal densities."
  },
  {
   "property": "C139",
   "status": "proved",
   "theorems": [
    "C139_reordering",
    "C139_lists",
    "C139_dicts"
   ],
   "note": "Exact arithmetic; C139_lists and C139_dicts at the level of the dataset file, C139_reordering for any reader."
  },
  {
   "property": "C140",
   "status": "proved",
   "theorems": [
    "C140_projection",
    "C140_live",
    "C140_legacy",
    "C140_least_squares",
    "C140_per_subject",
    "C140_lists",
    "C140_dicts"
   ],
   "note": "Exact arithmetic. C43 said this for two successful default runs of the projection classes; here the second run is shown to succeed, with all options and rejection, and from the dataset file on (C140_lists, C140_dicts)."
  },
  {
   "property": "C141",
   "status": "partial",
   "theorems": [
    "C141_factor",
    "C141_original",
    "C141_simplified_partial",
    "C141_numerical_partial",
    "C141_fit",
    "C141_refuted"
   ],
   "note": "Exact arithmetic. Holds for the original gradient and any k, t (C141_original), for the default gradient when t = 0 (C141_factor) or when no pass meets a vote of variance 0 (C141_simplified_partial), for numerical differences when k = 1 and the density is Gaussian (C141_numerical_partial: the step of the differences is fixed, so no other k can work). C141_refuted: with the default gradient a run succeeds and raises ValueError once 3 is added to every vote, since 0/0 is skipped and 3/0 is not."
  },
  {
   "property": "C142",
   "status": "proved",
   "theorems": [
    "C142_errors",
    "C142_scores",
    "C142_intervals",
    "C142_equal"
   ],
   "note": "Exact arithmetic; the optimizer, the CDF and the pseudo-inverse are arbitrary functions. C142_errors, C142_scores, C142_intervals and C142_equal cover failing runs, scores and deviations, interval membership and the case of equal scores."
  },
  {
   "property": "C143",
   "status": "proved",
   "theorems": [
    "C143_errors",
    "C143_scores",
    "C143_order"
   ],
   "note": "Exact arithmetic; the pseudo-inverse is an arbitrary function. C143_errors, C143_scores and C143_order cover failing runs, scores including the case of equal ones, and the ranking."
  }
 ]
}