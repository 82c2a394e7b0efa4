{"id": "C01", "title": "Opinion score array is a faithful encoding of the dataset", "statement": "For every accepted list-style or dict-style dataset, opinion_score_3darray has shape (number of videos, number of observers, largest repetition count or 1), its entry (e, s, k) is the k-th vote recorded for observer s on video e, and every position with no recorded vote is NaN: no vote is lost, invented, moved to another video or observer.", "quantifier": "All datasets accepted by RawDatasetReader whose votes are numbers, lists or tuples of numbers; all indices e, s, k.", "why_tests_cant": "The input space (datasets, numbers of videos/subjects/repetitions, missing patterns) is infinite; a test fixes one dataset.", "anchors": ["sureal/dataset_reader.py:RawDatasetReader.opinion_score_3darray", "sureal/dataset_reader.py:RawDatasetReader._get_max_repetitions", "sureal/dataset_reader.py:RawDatasetReader._get_num_observers"]}
{"id": "C02", "title": "Observer columns are canonical", "statement": "For dict-style datasets the observer columns are exactly the distinct subject names that voted on at least one video, in strictly increasing order; the list of names and hence the meaning of each column does not depend on the order in which subjects were entered in each video's dict nor on the order of the videos.", "quantifier": "All dict-style datasets and all reorderings of their videos and of the entries within each video.", "why_tests_cant": "Orderings are factorially many and the set is unbounded; tests use one insertion order.", "anchors": ["sureal/dataset_reader.py:RawDatasetReader._get_list_observers", "sureal/tools/misc.py:get_unique_sorted_list"]}
{"id": "C03", "title": "Dataset validation accepts exactly the well-formed datasets", "statement": "Constructing a raw reader succeeds exactly when there is at least one reference video and one distorted video, every reference content_id is non-negative, every distorted video's content_id is a reference content_id, every video has opinion scores that are a list, tuple or dict, and (when the first video is list-style) every video has as many entries as the first; otherwise it raises.", "quantifier": "All datasets (well-formed or not).", "why_tests_cant": "Malformed inputs form an infinite family.", "anchors": ["sureal/dataset_reader.py:DatasetReader._assert_dataset", "sureal/dataset_reader.py:RawDatasetReader._assert_dataset"]}
{"id": "C04", "title": "Aggregated dataset keeps videos, order and every other field", "statement": "to_aggregated_dataset(scores) returns the same videos in the same order, with 'os' removed, groundtruth of video i equal to scores[i] and every other key unchanged; reference videos and all other dataset attributes are unchanged; with aggregate_content_ids/aggregate_asset_ids exactly the videos with those ids remain, each with its own score; a score list of the wrong length is rejected.", "quantifier": "All datasets, score lists, id filters.", "why_tests_cant": "The input space (datasets, numbers of videos/subjects/repetitions, missing patterns) is infinite; a test fixes one dataset.", "anchors": ["sureal/dataset_reader.py:RawDatasetReader.to_aggregated_dataset", "sureal/dataset_reader.py:RawDatasetReader._prepare_new_dataset"]}
{"id": "C05", "title": "Per-subject dataset has one entry per vote, in order", "statement": "to_persubject_dataset on a dataset without repetitions yields, for each video in order, one copy of the video per non-missing processed vote carrying that vote as groundtruth (all of them for list-style, the non-NaN ones for dict-style), with 'os' removed and other keys unchanged; it raises AssertionError when the number of votes does not match.", "quantifier": "All datasets and per-subject score matrices.", "why_tests_cant": "The input space (datasets, numbers of videos/subjects/repetitions, missing patterns) is infinite; a test fixes one dataset.", "anchors": ["sureal/dataset_reader.py:RawDatasetReader.to_persubject_dataset", "sureal/subjective_model.py:PerSubjectModel"]}
{"id": "C06", "title": "Conversion to dictionary style preserves votes", "statement": "to_dictionary_style_dataset keeps every video's votes, one entry per list position, and leaves the source dataset untouched; the multiset of votes per video and hence every MOS is the same before and after; a dict-style dataset is returned as is.", "quantifier": "All list-style datasets with any number of observers.", "why_tests_cant": "The input space (datasets, numbers of videos/subjects/repetitions, missing patterns) is infinite; a test fixes one dataset.", "anchors": ["sureal/dataset_reader.py:RawDatasetReader.to_dictionary_style_dataset"]}
{"id": "C07", "title": "Combining overlapping datasets keeps exactly the votes of both", "statement": "to_combined_overlap_dataset returns one video for each pair of same-path videos; for each subject its votes there are the first dataset's votes followed by the second dataset's votes; content ids are renumbered consistently (two combined videos share a content id iff they did in the first dataset) and every combined content id has a reference video.", "quantifier": "All pairs of datasets, including shared subjects with and without repetitions.", "why_tests_cant": "The input space (datasets, numbers of videos/subjects/repetitions, missing patterns) is infinite; a test fixes one dataset.", "anchors": ["sureal/dataset_reader.py:RawDatasetReader.to_combined_overlap_dataset"]}
{"id": "C08", "title": "Combining overlapping datasets leaves its inputs unchanged", "statement": "to_combined_overlap_dataset does not modify the votes stored in either of the two input datasets.", "quantifier": "All pairs of datasets.", "why_tests_cant": "Mutation through aliasing shows only for specific shapes of votes (list in the first, scalar in the second) and is invisible in the returned value.", "anchors": ["sureal/dataset_reader.py:RawDatasetReader.to_combined_overlap_dataset"]}
{"id": "C09", "title": "Deterministic paired comparison conversion gives the right winner for every pair", "statement": "With default options to_pc_dataset records, for every subject and every unordered pair of distinct videos that this subject rated (of the same content, or any two when pc_type='within_subject'), exactly: 1 for the strictly higher rated one and nothing for the other, or 0.5 for both on equality; and records nothing else.", "quantifier": "All datasets without repetitions and with distinct asset ids; all subjects; all pairs.", "why_tests_cant": "The input space (datasets, numbers of videos/subjects/repetitions, missing patterns) is infinite; a test fixes one dataset.", "anchors": ["sureal/dataset_reader.py:RawDatasetReader.to_pc_dataset"]}
{"id": "C10", "title": "Randomised paired comparison conversion never produces contradictory outcomes", "statement": "For every random stream, tie breaking method, coin toss rate, noise level and sampling rate, each (subject, pair) in the produced dataset has recorded outcomes that sum to at most 1 (never both 1).", "quantifier": "All random streams and all option values, including sampling rates above 1.", "why_tests_cant": "Random draws; only some streams expose it.", "anchors": ["sureal/dataset_reader.py:RawDatasetReader.to_pc_dataset"]}
{"id": "C11", "title": "Sampling options of the paired comparison conversion", "statement": "sampling_rate=0 yields no comparisons; any sampling_rate <= 1 yields a dataset whose outcomes are a sub-collection of those obtained without sampling; any integer sampling rate k >= 1 without coin tosses or noise yields the same dataset as no sampling option; the number of random draws is bounded by the number of pairs times (ceil(rate)) times 5 and the conversion always terminates.", "quantifier": "All datasets, random streams and rates.", "why_tests_cant": "Depends on every possible random stream.", "anchors": ["sureal/dataset_reader.py:RawDatasetReader.to_pc_dataset"]}
{"id": "C12", "title": "Paired comparison conversion leaves the source reader's scores unchanged", "statement": "After to_pc_dataset, reading opinion_score_3darray from the same reader gives the same array as before the call.", "quantifier": "All readers, any number of observers.", "why_tests_cant": "The in-place conversion to string-keyed dicts only reorders columns from eleven observers on.", "anchors": ["sureal/dataset_reader.py:RawDatasetReader.to_pc_dataset", "sureal/dataset_reader.py:RawDatasetReader.opinion_score_3darray"]}
{"id": "C13", "title": "Per-asset options of the paired comparison conversion apply to the asset they are given for", "statement": "per_asset_sampling_rates / per_asset_cointoss_rates / per_asset_noise_levels are given per video (list of the length of dis_videos); the rate used for a pair is the mean of the entries of the two compared videos.", "quantifier": "All datasets including ones where a subject skipped some videos.", "why_tests_cant": "Only wrong on partially sampled data.", "anchors": ["sureal/dataset_reader.py:RawDatasetReader.to_pc_dataset"]}
{"id": "C14", "title": "Paired comparison tensor is antisymmetric", "statement": "For every accepted paired comparison dataset, whenever entry (i, j, s) of the opinion array with i != j is present so is (j, i, s) and the two sum to 1; all entries are 0, 0.5, 1 or NaN; consequently summed over subjects alpha_ij + alpha_ji is the number of subjects that compared i and j.", "quantifier": "All accepted paired comparison datasets, all i, j, s, including datasets with repeated or contradictory entries.", "why_tests_cant": "The input space (datasets, numbers of videos/subjects/repetitions, missing patterns) is infinite; a test fixes one dataset.", "anchors": ["sureal/dataset_reader.py:PairedCompDatasetReader.opinion_score_3darray"]}
{"id": "C15", "title": "Paired comparison tensor addresses videos consistently", "statement": "A comparison recorded under the video with asset_id a against asset_id b by subject s appears at entry (a, b, s) of the opinion array, i.e. rows and columns are indexed the same way.", "quantifier": "All accepted paired comparison datasets, in any order of the videos.", "why_tests_cant": "Only visible when the list order differs from the asset ids.", "anchors": ["sureal/dataset_reader.py:PairedCompDatasetReader.opinion_score_3darray"]}
{"id": "C16", "title": "Ratings to paired comparison to tensor round trip", "statement": "Converting a rating dataset (asset ids equal to positions) with default options and reading the result with PairedCompDatasetReader gives entry (i, j, s) = 1, 0.5, 0 according to whether subject s rated i above, equal to or below j, for all pairs of distinct videos of the same content that s rated, and NaN for all other entries.", "quantifier": "All rating datasets without repetitions.", "why_tests_cant": "The input space (datasets, numbers of videos/subjects/repetitions, missing patterns) is infinite; a test fixes one dataset.", "anchors": ["sureal/dataset_reader.py:RawDatasetReader.to_pc_dataset", "sureal/dataset_reader.py:PairedCompDatasetReader.opinion_score_3darray"]}
{"id": "C17", "title": "Selecting subjects returns exactly those subjects' votes", "statement": "SelectSubjectRawDatasetReader's opinion_score_3darray has one column per selected index and column k equals the column of subject selected_subjects[k] in the plain reader, for all videos and repetitions.", "quantifier": "All datasets and all selections (any indices, with repetition).", "why_tests_cant": "Correct for prefixes 0..n-1 (which the tests use) and for dict-style.", "anchors": ["sureal/dataset_reader.py:SelectSubjectRawDatasetReader.opinion_score_3darray", "sureal/dataset_reader.py:SelectSubjectRawDatasetReader.num_observers", "sureal/dataset_reader.py:RawDatasetReader.opinion_score_3darray"]}
{"id": "C18", "title": "Selecting distorted videos returns exactly those videos", "statement": "SelectDisVideoRawDatasetReader given positions of distorted videos yields the videos at those positions, in that order, with repetition.", "quantifier": "All datasets (any asset ids) and all lists of valid positions.", "why_tests_cant": "Only wrong when asset ids differ from positions.", "anchors": ["sureal/dataset_reader.py:SelectDisVideoRawDatasetReader.dis_videos"]}
{"id": "C19", "title": "Simulated missing data only removes votes", "statement": "Every entry of MissingDataRawDatasetReader's array is either equal to the underlying vote or NaN; with missing_probability 0 and draws > 0 nothing is removed; with probability >= 1 everything is removed; the shape is unchanged.", "quantifier": "All datasets, probabilities and random draws.", "why_tests_cant": "Quantifies over random draws.", "anchors": ["sureal/dataset_reader.py:MissingDataRawDatasetReader.opinion_score_3darray"]}
{"id": "C20", "title": "Corrupted subjects: only the selected subjects change and votes stay in range", "statement": "CorruptSubjectRawDatasetReader leaves every column of a non-selected subject unchanged; behaviour 'flip' maps every present vote v to min+max-v, keeps missing votes missing, stays in [min, max]; 'min','mid','max' write values in [min, max]; 'shuffle' permutes the selected subject's rows.", "quantifier": "All datasets, selections, behaviours, probabilities and random draws.", "why_tests_cant": "Quantifies over random draws.", "anchors": ["sureal/dataset_reader.py:CorruptSubjectRawDatasetReader.opinion_score_3darray"]}
{"id": "C21", "title": "A simulated dataset can be re-read with the same scores", "statement": "For the simulated-data readers (missing, select subject, corrupt, synthetic), reading the dataset returned by to_dataset() with a plain reader gives the array it was made from.", "quantifier": "All datasets, including ones with repetitions.", "why_tests_cant": "Fails only with repetitions, which the tests of to_dataset never use.", "anchors": ["sureal/dataset_reader.py:MockedRawDatasetReader.to_dataset", "sureal/dataset_reader.py:RawDatasetReader.opinion_score_3darray"]}
{"id": "C22", "title": "Written datasets re-import with the same attributes", "statement": "Importing the file written by write_out_dataset yields exactly the public attributes of the dataset (names not starting with two underscores), each with its value, provided every value's repr evaluates to itself.", "quantifier": "All dataset objects with any extra attributes.", "why_tests_cant": "The input space (datasets, numbers of videos/subjects/repetitions, missing patterns) is infinite; a test fixes one dataset.", "anchors": ["sureal/dataset_reader.py:DatasetReader.write_out_dataset", "sureal/tools/misc.py:import_python_file"]}
{"id": "C23", "title": "MOS is the mean of the recorded votes", "statement": "The MOS model's quality score of a video is the arithmetic mean of all votes recorded for it in the dataset (all subjects, all repetitions), NaN exactly when it has none; hence it lies between the video's smallest and largest vote.", "quantifier": "All accepted datasets with finite votes.", "why_tests_cant": "The input space (datasets, numbers of videos/subjects/repetitions, missing patterns) is infinite; a test fixes one dataset.", "anchors": ["sureal/subjective_model.py:MosModel._get_mos_and_stats", "sureal/subjective_model.py:SubjectiveModel._stack_repetitions_along_axis"]}
{"id": "C24", "title": "MOS uncertainty follows the sample standard deviation", "statement": "With n >= 2 votes, quality_ambiguity is the Bessel-corrected sample standard deviation, quality_scores_std is it divided by sqrt(n), both CI half-widths are 1.95996 times that and are non-negative; with fewer than 2 votes they are NaN.", "quantifier": "All accepted datasets with finite votes.", "why_tests_cant": "The input space (datasets, numbers of videos/subjects/repetitions, missing patterns) is infinite; a test fixes one dataset.", "anchors": ["sureal/subjective_model.py:MosModel._get_mos_and_stats"]}
{"id": "C25", "title": "MOS results do not depend on who voted in which column or repetition", "statement": "Permuting subjects, or permuting votes between columns and repetitions within a video, or adding columns without votes leaves quality_scores, their std and CI unchanged; permuting videos permutes them.", "quantifier": "All arrays and permutations.", "why_tests_cant": "Factorially many permutations of unbounded arrays.", "anchors": ["sureal/subjective_model.py:MosModel._get_mos_and_stats"]}
{"id": "C26", "title": "MOS is affine equivariant", "statement": "Replacing every vote x by a*x+c replaces each MOS m by a*m+c, each std and CI half-width w by |a|*w.", "quantifier": "All arrays, all real a, c.", "why_tests_cant": "Uncountably many scales.", "anchors": ["sureal/subjective_model.py:MosModel._get_mos_and_stats"]}
{"id": "C27", "title": "DMOS anchors the reference", "statement": "With differential scoring the quality score of video e is MOS(e) + ref_score - MOS(reference of e), so the reference video of every content gets exactly ref_score; datasets in which a content has zero or several reference videos among the distorted videos are rejected with AssertionError.", "quantifier": "All accepted datasets with a ref_score.", "why_tests_cant": "The input space (datasets, numbers of videos/subjects/repetitions, missing patterns) is infinite; a test fixes one dataset.", "anchors": ["sureal/subjective_model.py:SubjectiveModel._get_ref_mos", "sureal/subjective_model.py:SubjectiveModel._get_opinion_score_3darray_with_preprocessing", "sureal/subjective_model.py:DmosModel"]}
{"id": "C28", "title": "Z-scoring normalises every subject", "statement": "After z-scoring every subject with at least two distinct votes has scores with mean 0 and sample standard deviation 1, missing votes stay missing; a subject with fewer than two votes or with all votes equal contributes no scores at all (all NaN).", "quantifier": "All arrays with finite votes.", "why_tests_cant": "The input space (datasets, numbers of videos/subjects/repetitions, missing patterns) is infinite; a test fixes one dataset.", "anchors": ["sureal/subjective_model.py:SubjectiveModel._get_opinion_score_3darray_with_preprocessing", "sureal/subjective_model.py:ZscoringMosModel"]}
{"id": "C29", "title": "Bias removal", "statement": "Bias removal subtracts from every vote of subject s the same number, the mean difference of s's votes from the MOS; on complete data the biases sum to zero, every MOS is unchanged, and repeating it changes nothing.", "quantifier": "All arrays with finite votes; completeness where stated.", "why_tests_cant": "The input space (datasets, numbers of videos/subjects/repetitions, missing patterns) is infinite; a test fixes one dataset.", "anchors": ["sureal/subjective_model.py:SubjectiveModel._get_opinion_score_3darray_with_preprocessing", "sureal/subjective_model.py:BiasremvMosModel"]}
{"id": "C30", "title": "Outlier (kurtosis) subject rejection partitions the subjects", "statement": "observer_rejected has one flag per subject; the retained columns are exactly the non-rejected subjects in their original order with unchanged votes; at least one subject is always retained; a subject is flagged only if its outlier rate exceeds 0.05 and its asymmetry is below 0.3.", "quantifier": "All arrays.", "why_tests_cant": "The input space (datasets, numbers of videos/subjects/repetitions, missing patterns) is infinite; a test fixes one dataset.", "anchors": ["sureal/subjective_model.py:SubjectiveModel._get_opinion_score_3darray_with_preprocessing", "sureal/subjective_model.py:SubjrejMosModel"]}
{"id": "C31", "title": "Outlier subject rejection does not depend on the rating scale", "statement": "Applying x -> a*x+c with a > 0 to all votes leaves the set of rejected subjects unchanged; with a < 0 as well.", "quantifier": "All arrays with finite votes, all a != 0 and c.", "why_tests_cant": "Uncountably many scales.", "anchors": ["sureal/subjective_model.py:SubjectiveModel._get_opinion_score_3darray_with_preprocessing"]}
{"id": "C32", "title": "Correlation based subject rejection reports what it removes", "statement": "For Pearson/Spearman rejection, the retained columns are exactly the subjects whose observer_rejected flag is False, and at least one subject is retained.", "quantifier": "All arrays, including subjects whose correlation is undefined (constant voters).", "why_tests_cant": "Only undefined or tied correlations expose it.", "anchors": ["sureal/subjective_model.py:SubjectiveModel._get_opinion_score_3darray_with_preprocessing", "sureal/subjective_model.py:SubjrejMosModelPearson", "sureal/subjective_model.py:SubjrejMosModelSpearman"]}
{"id": "C33", "title": "Processing flags are checked before any computation", "statement": "Models that already apply a step raise AssertionError if asked to apply it again; z-scoring together with bias removal is rejected; a rejection type without rejection is rejected; likelihood models reject subject_rejection=True; otherwise exactly the announced steps are applied.", "quantifier": "All combinations of flags for all model classes.", "why_tests_cant": "Product of model classes and flag values.", "anchors": ["sureal/subjective_model.py:DmosModel.run_modeling", "sureal/subjective_model.py:ZscoringSubjrejDmosModel.run_modeling", "sureal/subjective_model.py:BiasremvSubjrejMosModel.run_modeling", "sureal/subjective_model.py:MaximumLikelihoodEstimationModel._run_modeling"]}
{"id": "C34", "title": "Final normalisation and transformation", "statement": "With normalize_final the final quality scores have mean 0 and population standard deviation 1 whenever they are not all equal; transform_final applies p2*x^2+p1*x+p0 with absent coefficients 0; both keep the number and, for p2 absent and p1 > 0, the ranking of the videos; without options results are unchanged.", "quantifier": "All score vectors and coefficients.", "why_tests_cant": "The input space (datasets, numbers of videos/subjects/repetitions, missing patterns) is infinite; a test fixes one dataset.", "anchors": ["sureal/subjective_model.py:SubjectiveModel._postprocess_model_result"]}
{"id": "C35", "title": "Repetition stacking is a bijection", "statement": "Stacking repetitions along either axis keeps every entry exactly once, row/column k of the stack belongs to video/subject k modulo the original size.", "quantifier": "All shapes and contents.", "why_tests_cant": "All shapes.", "anchors": ["sureal/subjective_model.py:SubjectiveModel._stack_repetitions_along_axis"]}
{"id": "C36", "title": "The simplified and original gradient methods of the MLE model agree", "statement": "For every dataset and every number of iterations, gradient_method 'simplified' and 'original' produce identical results (quality scores, biases, inconsistencies, ambiguities, their stds, iteration count).", "quantifier": "All datasets, all iteration counts, both oblivious modes.", "why_tests_cant": "Tests compare to a few digits on one dataset.", "anchors": ["sureal/subjective_model.py:MaximumLikelihoodEstimationModel._run_modeling"]}
{"id": "C37", "title": "The MLE update formulas are Newton steps on the reported likelihood", "statement": "The first and second order terms used for b_s, v_s, a_c and x_e are the first and second derivatives of the Gaussian log-likelihood function with respect to that parameter.", "quantifier": "All datasets and parameter values with v_s^2+a_c^2 > 0.", "why_tests_cant": "Analytic identity over the reals.", "anchors": ["sureal/subjective_model.py:MaximumLikelihoodEstimationModel._run_modeling", "sureal/subjective_model.py:MaximumLikelihoodEstimationModel.loglikelihood_fcn"]}
{"id": "C38", "title": "Inconsistencies and ambiguities are never negative", "statement": "Every finite observer_inconsistency, content_ambiguity and reported std returned by the MLE, MLE_CO, MLE_SO and projection models is non-negative; the content-oblivious mode works with ambiguity zero, the subject-oblivious mode with bias and inconsistency zero.", "quantifier": "All datasets, all iteration counts.", "why_tests_cant": "The input space (datasets, numbers of videos/subjects/repetitions, missing patterns) is infinite; a test fixes one dataset.", "anchors": ["sureal/subjective_model.py:MaximumLikelihoodEstimationModel._run_modeling", "sureal/subjective_model.py:SubjectMLEModelProjectionSolver._run_modeling"]}
{"id": "C39", "title": "Forcing zero-mean bias changes no prediction", "statement": "With force_subjbias_zeromean the reported biases sum to 0, and reconstructions, residuals, log-likelihood, aic and bic are the same as with the option off; quality scores differ by one common constant.", "quantifier": "All datasets, all models with bias.", "why_tests_cant": "The input space (datasets, numbers of videos/subjects/repetitions, missing patterns) is infinite; a test fixes one dataset.", "anchors": ["sureal/subjective_model.py:MaximumLikelihoodEstimationModel._run_modeling", "sureal/subjective_model.py:SubjectMLEModelProjectionSolver._run_modeling"]}
{"id": "C40", "title": "Iterative solvers stop within their iteration limits", "statement": "The projection solver performs between 1 and 1000 iterations, the MLE solver between 1 and 10000, the legacy solver between 1 and 5000, for any input whatsoever, and stops early only when the last change is below the threshold.", "quantifier": "All inputs.", "why_tests_cant": "Non-termination cannot be tested.", "anchors": ["sureal/subjective_model.py:SubjectMLEModelProjectionSolver._run_modeling", "sureal/subjective_model.py:MaximumLikelihoodEstimationModel._run_modeling"]}
{"id": "C41", "title": "P.910 solver is translation equivariant", "statement": "Adding a constant c to every vote adds c to every quality score and leaves biases, inconsistencies, all stds, CIs and the iteration count unchanged.", "quantifier": "All arrays with finite votes, all c.", "why_tests_cant": "Uncountably many constants; iterative algorithm.", "anchors": ["sureal/subjective_model.py:SubjectMLEModelProjectionSolver._run_modeling"]}
{"id": "C42", "title": "P.910 solver separates subject offsets on complete data", "statement": "On complete data, adding an arbitrary offset d_s to all votes of each subject s changes the quality scores by the mean offset, the biases by d_s minus the mean offset, and nothing else (inconsistencies, stds, residuals, iteration count).", "quantifier": "All complete arrays, all offset vectors.", "why_tests_cant": "Uncountably many offsets; iterative algorithm.", "anchors": ["sureal/subjective_model.py:SubjectMLEModelProjectionSolver._run_modeling"]}
{"id": "C43", "title": "P.910 solver is equivariant under reordering of subjects and videos", "statement": "Permuting subjects permutes biases and inconsistencies and leaves quality scores unchanged; permuting videos permutes quality scores and leaves subject parameters unchanged.", "quantifier": "All arrays, all permutations.", "why_tests_cant": "Factorially many permutations.", "anchors": ["sureal/subjective_model.py:SubjectMLEModelProjectionSolver._run_modeling"]}
{"id": "C44", "title": "P.910 solver recovers noise-free data exactly", "statement": "If every subject voted on every video and each vote equals q_e + b_s, the solver returns biases b_s - mean(b), quality scores q_e + mean(b), inconsistencies 0 and reconstructions equal to the votes, after one iteration.", "quantifier": "All q, b and repetition counts.", "why_tests_cant": "All parameters.", "anchors": ["sureal/subjective_model.py:SubjectMLEModelProjectionSolver._run_modeling"]}
{"id": "C45", "title": "P.910 quality scores are weighted means of debiased votes", "statement": "In every iteration the quality estimate of a video lies between the smallest and the largest of its bias-corrected votes.", "quantifier": "All arrays with finite votes, every iteration.", "why_tests_cant": "The input space (datasets, numbers of videos/subjects/repetitions, missing patterns) is infinite; a test fixes one dataset.", "anchors": ["sureal/tools/misc.py:weighed_nanmean_2d", "sureal/subjective_model.py:SubjectMLEModelProjectionSolver._run_modeling"]}
{"id": "C46", "title": "A subject without votes does not affect anybody's quality scores", "statement": "Adding a subject (column) that has no votes leaves the projection solver's quality scores unchanged.", "quantifier": "All arrays.", "why_tests_cant": "Needs missing data patterns the tests never use.", "anchors": ["sureal/subjective_model.py:SubjectMLEModelProjectionSolver._run_modeling"]}
{"id": "C47", "title": "Bradley-Terry MLE iterates are probability vectors", "statement": "Every iterate of the Bradley-Terry MLE solver is a strictly positive vector summing to 1 whenever every video won at least once and the comparison counts are non-negative.", "quantifier": "All win matrices, every iteration.", "why_tests_cant": "The input space (datasets, numbers of videos/subjects/repetitions, missing patterns) is infinite; a test fixes one dataset.", "anchors": ["sureal/pc_subjective_model.py:BradleyTerryMlePairedCompSubjectiveModel.resolve_model"]}
{"id": "C48", "title": "Bradley-Terry MLE never decreases the likelihood", "statement": "Each iteration of the Bradley-Terry MLE solver does not decrease the Bradley-Terry log-likelihood.", "quantifier": "All win matrices with every video winning at least once; every iteration.", "why_tests_cant": "Analytic inequality for all matrices.", "anchors": ["sureal/pc_subjective_model.py:BradleyTerryMlePairedCompSubjectiveModel.resolve_model"]}
{"id": "C49", "title": "Bradley-Terry fixed points balance observed and expected wins", "statement": "A vector is a fixed point of the solver's update iff for every video the observed number of wins equals the number expected under the model up to one common normalisation, which is then 1; these are exactly the stationary points of the likelihood.", "quantifier": "All win matrices.", "why_tests_cant": "The input space (datasets, numbers of videos/subjects/repetitions, missing patterns) is infinite; a test fixes one dataset.", "anchors": ["sureal/pc_subjective_model.py:BradleyTerryMlePairedCompSubjectiveModel.resolve_model"]}
{"id": "C50", "title": "Bradley-Terry uncertainty uses the Hessian of the log-likelihood", "statement": "The matrix used to derive quality_scores_std is the Hessian of the Bradley-Terry log-likelihood (off-diagonal n_ij/(p_i+p_j)^2) as documented in the code.", "quantifier": "All win matrices and p.", "why_tests_cant": "The tests pin whatever value the code produced.", "anchors": ["sureal/pc_subjective_model.py:BradleyTerryMlePairedCompSubjectiveModel.resolve_model"]}
{"id": "C51", "title": "Bradley-Terry and Thurstone likelihoods depend on differences only", "statement": "Adding a constant to all Thurstone scores leaves the negative log-likelihood unchanged; multiplying all Bradley-Terry strengths by a positive constant leaves the likelihood unchanged; relabelling videos relabels the results.", "quantifier": "All win matrices, scores, constants, permutations.", "why_tests_cant": "Uncountable.", "anchors": ["sureal/pc_subjective_model.py:ThurstoneMlePairedCompSubjectiveModel.neg_log_likelihood_function", "sureal/pc_subjective_model.py:BradleyTerryMlePairedCompSubjectiveModel.resolve_model"]}
{"id": "C52", "title": "Both Thurstone covariance formulas agree", "statement": "use_simplified_lbda True and False give identical matrices, hence identical standard deviations, and that matrix is the second derivative matrix of the log-likelihood.", "quantifier": "All win matrices and score vectors.", "why_tests_cant": "Analytic identity.", "anchors": ["sureal/pc_subjective_model.py:ThurstoneMlePairedCompSubjectiveModel.resolve_model"]}
{"id": "C53", "title": "parallel_map returns results in input order with bounded concurrency", "statement": "For every schedule of worker completions, parallel_map never has more than `processes` workers running, starts each job exactly once, and if all workers finish successfully returns func(x) for each x in input order.", "quantifier": "All functions, argument lists, process limits >= 1 and all schedules.", "why_tests_cant": "Schedules are unbounded.", "anchors": ["sureal/tools/misc.py:parallel_map"]}
{"id": "C54", "title": "Memoisation is transparent", "statement": "A memoized pure function returns the same values as the function itself for every sequence of calls and evaluates it at most once per distinct argument tuple.", "quantifier": "All call histories.", "why_tests_cant": "All histories.", "anchors": ["sureal/tools/decorator.py:memoized"]}
{"id": "C55", "title": "On-disk result cache survives crashes", "statement": "After any number of calls and crashes of persist_to_dir-decorated functions, a later call returns the function's value (or recomputes it), never an error or a value for another argument.", "quantifier": "All call histories and crash points.", "why_tests_cant": "Crash points.", "anchors": ["sureal/tools/decorator.py:persist_to_dir", "sureal/routine.py:_get_sample_stats_wrapper_persistent"]}
{"id": "C56", "title": "Model lookup by name", "statement": "find_subclass(name) returns the class with that TYPE if exactly one class below the base has it and raises AssertionError otherwise; every TYPE announced by the package identifies exactly one model.", "quantifier": "All class hierarchies (trees) and names; the package's own hierarchy.", "why_tests_cant": "All hierarchies.", "anchors": ["sureal/core/mixin.py:TypeVersionEnabled.find_subclass", "sureal/core/mixin.py:TypeVersionEnabled.get_subclasses_recursively"]}
{"id": "C57", "title": "Command line accepts either rating models or paired comparison models, never a mix", "statement": "The command line proceeds with the rating reader iff all requested models are rating models, with the paired comparison reader iff all are paired comparison models, and refuses any mixture.", "quantifier": "All lists of models.", "why_tests_cant": "All lists.", "anchors": ["sureal/__main__.py:main"]}
{"id": "C58", "title": "Command option lookup", "statement": "get_cmd_option returns the argument following the first occurrence of the option in the given range, None if the option is absent or last in range; cmd_option_exists tells whether it occurs in the range.", "quantifier": "All argument vectors, ranges and options.", "why_tests_cant": "All inputs.", "anchors": ["sureal/tools/misc.py:get_cmd_option", "sureal/tools/misc.py:cmd_option_exists"]}
{"id": "C59", "title": "Density of the sum of two uniforms", "statement": "convolution_of_two_uniforms(x, loc1, s1, loc2, s2) depends only on x-loc1-loc2, is non-negative and vanishes outside the support.", "quantifier": "All real arguments with positive widths.", "why_tests_cant": "The doctests only use locations 0.", "anchors": ["sureal/tools/stats.py:convolution_of_two_uniforms"]}
{"id": "C60", "title": "Formatted output reports every model's value for every video and observer", "statement": "format_output_of_run_subjective_models returns for every video, in order, its name and for each model exactly that model's quality score, std and CI; likewise for observers; results with mismatching lengths are rejected.", "quantifier": "All lists of model results with distinct TYPEs.", "why_tests_cant": "The input space (datasets, numbers of videos/subjects/repetitions, missing patterns) is infinite; a test fixes one dataset.", "anchors": ["sureal/routine.py:format_output_of_run_subjective_models"]}
{"id": "C61", "title": "Every bundled paired comparison model's result can be formatted", "statement": "The command line pipeline (run, then format_output_of_run_subjective_models) does not fail on the result of any bundled paired comparison model.", "quantifier": "All models and results they can return.", "why_tests_cant": "Tests format only two of the three.", "anchors": ["sureal/routine.py:format_output_of_run_subjective_models", "sureal/pc_subjective_model.py:BradleyTerryNewtonRaphsonPairedCompSubjectiveModel"]}
{"id": "C62", "title": "Coverage percentage", "statement": "get_ci_percentage is between 0 and 100 and is 100 times the fraction of parameters inside their interval; widening intervals never lowers it; mismatching lengths are rejected.", "quantifier": "All parameter vectors.", "why_tests_cant": "The input space (datasets, numbers of videos/subjects/repetitions, missing patterns) is infinite; a test fixes one dataset.", "anchors": ["sureal/routine.py:get_ci_percentage"]}
{"id": "C63", "title": "RMSE and Pearson metrics", "statement": "RMSE is non-negative, symmetric, zero iff the vectors are equal, and satisfies the triangle inequality; the Pearson score is in [-1, 1] and invariant under positive affine maps of either side.", "quantifier": "All vectors of equal positive length.", "why_tests_cant": "Uncountable.", "anchors": ["sureal/perf_metric.py:RmsePerfMetric", "sureal/perf_metric.py:PccPerfMetric"]}
{"id": "C64", "title": "Logistic mapping stays in range and is monotone", "statement": "sigmoid_adjust returns predictions strictly between min(y)-0.1 and max(y)+0.1 and preserves (b>0) or reverses (b<0) the order of predictions, for any fitted a and b != 0.", "quantifier": "All prediction and groundtruth vectors.", "why_tests_cant": "Uncountable.", "anchors": ["sureal/perf_metric.py:AggrScorePerfMetric.sigmoid_adjust"]}
{"id": "C65", "title": "Bootstrap alignment", "statement": "In bootstrapping, each bootstrap replicate is shifted so that the mean difference between its biases (scores) and the selected reference biases (scores) is zero, and the shift changes no prediction (quality+bias sums).", "quantifier": "All replicates.", "why_tests_cant": "The input space (datasets, numbers of videos/subjects/repetitions, missing patterns) is infinite; a test fixes one dataset.", "anchors": ["sureal/experimental.py:MaximumLikelihoodEstimationModelWithBootstrapping._bootstrap_subjects"]}
{"id": "C66", "title": "Synthetic data reproduce the generating parameters", "statement": "SyntheticRawDatasetReader's array is quality + bias + content bias plus noise scaled by the inconsistencies and ambiguities; with all of these zero it equals quality + bias + content bias exactly for every random draw.", "quantifier": "All parameter vectors and random draws.", "why_tests_cant": "Random draws.", "anchors": ["sureal/dataset_reader.py:SyntheticRawDatasetReader.opinion_score_3darray"]}
{"id": "C67", "title": "A subject agreeing with everybody is not an outlier", "statement": "Kurtosis based subject rejection never rejects a subject whose votes all lie strictly within two standard deviations of the mean of the video they rate, nor one whose votes equal those of everybody else who rated the video.", "quantifier": "All arrays with finite votes.", "why_tests_cant": "Depends on the spread of the votes per video: on a video on which everyone agrees the bounds collapse to the common vote and the comparisons are non-strict.", "anchors": ["sureal/subjective_model.py:223-270"]}
{"id": "C68", "title": "Dictionary-style conversion keeps each subject in its column", "statement": "After to_dictionary_style_dataset the opinion score array has the same entries as before: column s still holds the votes of the s-th observer of the list-style dataset.", "quantifier": "All list-style datasets with any number of observers.", "why_tests_cant": "The generated names sort differently from the list positions only from eleven observers on.", "anchors": ["sureal/dataset_reader.py:RawDatasetReader.to_dictionary_style_dataset", "sureal/dataset_reader.py:RawDatasetReader._get_list_observers"]}
{"id": "C69", "title": "Simulated data corruption touches only the drawn votes", "statement": "CorruptDataRawDatasetReader keeps the shape of the array, leaves every entry whose uniform draw exceeds the probability as it is, and replaces every other entry by a value between 1 and the dataset's ref_score; a missing entry stays missing.", "quantifier": "All readable datasets, probabilities and draws in [0,1).", "why_tests_cant": "Random draws; the tests check one aggregate value for one seed.", "anchors": ["sureal/dataset_reader.py:CorruptDataRawDatasetReader.opinion_score_3darray"]}
{"id": "C70", "title": "The projection solver's whole result, and when there is one", "statement": "For finite votes the projection models return a result exactly when every video has a vote, and raise ValueError otherwise. The result is the alternating weighted projection run until the quality scores move by less than 1e-8 (or 1000 passes): quality scores, biases, inconsistencies, their stds and 95% intervals, per-observer mean and std, reconstructions, dof, log-likelihood, aic and bic are given by their formulas over the votes present.", "quantifier": "All datasets with finite votes, all four projection classes, both settings of force_subjbias_zeromean.", "why_tests_cant": "Tests compare a handful of numbers on two datasets without missing subjects.", "anchors": ["sureal/subjective_model.py:SubjectMLEModelProjectionSolver._run_modeling"]}
{"id": "C71", "title": "Every entry of the MLE result dictionary is derived from the final vectors as announced", "statement": "The result reports the preprocessed votes as raw_scores, the number of passes, the vectors after that many passes (bias/inconsistency only outside the subject-oblivious mode, ambiguity only outside the content-oblivious mode), 95% intervals of 1.95996 times the std (chi-squared factors for the inconsistency), reconstructions q_e + b_s, dof = number of parameters / number of votes, log-likelihood per vote of the reported parameters, aic = 2 dof - 2 ll and bic = ln(n) dof - 2 ll.", "quantifier": "All datasets with finite votes, all MLE classes, gradient methods, thresholds and preprocessing options without final normalisation.", "why_tests_cant": "Tests compare a few digits on fixed datasets.", "anchors": ["sureal/subjective_model.py:MaximumLikelihoodEstimationModel._run_modeling"]}
{"id": "C72", "title": "The paired comparison conversion refuses exactly the invalid options", "statement": "to_pc_dataset raises AssertionError for an unknown pc_type or tiebreak method, for a scalar and a per-asset setting of the same option together, for negative rates or noise levels, for coin toss rates outside [0, 1] and for per-asset lists of the wrong length, and accepts every other combination.", "quantifier": "All option values, all datasets.", "why_tests_cant": "The option space is a product of unbounded numbers and lists.", "anchors": ["sureal/dataset_reader.py:RawDatasetReader.to_pc_dataset"]}
{"id": "C74", "title": "The Newton-Raphson Bradley-Terry solver steps with the gradient and Hessian of the log-likelihood", "statement": "In every pass the vector dL and matrix d2L are the gradient and the second derivatives of the Bradley-Terry log-likelihood in the log-strengths (last one held at 0); the returned scores are one such Newton step from a point at distance at most 1e-8, the last score is 0, and z-scored output has mean 0 and variance 1.", "quantifier": "All win matrices with non-negative counts and no self-comparisons, all points, every pass, all pseudo-inverses.", "why_tests_cant": "Tests compare the final digits on one dataset.", "anchors": ["sureal/pc_subjective_model.py:BradleyTerryNewtonRaphsonPairedCompSubjectiveModel._run_modeling"]}
{"id": "C75", "title": "Rank metrics", "statement": "The Spearman score is the Pearson coefficient of average ranks; Spearman and Kendall scores lie in [-1, 1], do not change under strictly increasing maps of either side, are 1 when predictions are a strictly increasing function of the groundtruth and -1 when they are a strictly decreasing one.", "quantifier": "All vectors of equal length that are not constant; the invariance for all vectors.", "why_tests_cant": "Uncountable; tests fix one vector pair.", "anchors": ["sureal/perf_metric.py:SrccPerfMetric", "sureal/perf_metric.py:KendallPerfMetric"]}
{"id": "C76", "title": "Results of the rating models can be formatted", "statement": "Formatting the result of any bundled rating model, run on a raw dataset reader with its default observers, does not fail: the lengths of all reported columns match the videos, the observers and the contents.", "quantifier": "All raw datasets, models of the MOS, projection and maximum likelihood families, and options with which the run succeeds.", "why_tests_cant": "Tests format a few datasets with list votes or contiguous content ids; named observers with rejection and gaps in the content ids are not among them.", "anchors": ["sureal/routine.py:format_output_of_run_subjective_models", "sureal/subjective_model.py:SubjectiveModel.run_modeling", "sureal/subjective_model.py:SubjectMLEModelProjectionSolver2"]}
{"id": "C77", "title": "Bootstrapped intervals and final values", "statement": "A bootstrapped run succeeds whenever the maximum likelihood run on the same dataset does; it reports that run with scores and biases shifted by the mean bias (predictions unchanged, biases summing to 0) or unshifted when the shift is off, drops the intervals that are switched off, and every reported interval, from the 2.5% to the 97.5% quantile of the replicates, contains the reported value.", "quantifier": "All raw datasets, draws, numbers of replicates and options.", "why_tests_cant": "Tests run one dataset with seeded draws.", "anchors": ["sureal/experimental.py:MaximumLikelihoodEstimationModelWithBootstrapping._run_modeling", "sureal/experimental.py:MaximumLikelihoodEstimationModelWithBootstrapping._boostrap_dis_videos"]}
{"id": "C73", "title": "Entries of a MOS result", "statement": "A result of the MOS family holds, per video, the mean, the sample standard deviation (ambiguity), the standard error and the 95% interval of the votes that were kept; the reconstruction repeats the score of the video; the degrees of freedom are (2E, plus S times R with bias removal) over the number of votes read; the log-likelihood is the mean normal log-density of the kept votes with sample standard deviation, AIC and BIC follow from both; biases are present exactly for the bias-removing classes, observers exactly when the votes are named.", "quantifier": "All readers with finite votes, classes of the MOS family and options without normalisation or transformation of the final scores.", "why_tests_cant": "Tests compare single numbers of a few datasets.", "anchors": ["sureal/subjective_model.py:MosModel._run_modeling", "sureal/subjective_model.py:MosModel._get_mos_and_stats", "sureal/subjective_model.py:BiasremvMosModel"]}
{"id": "C78", "title": "Start values of the likelihood models", "statement": "Maximum likelihood runs start from the mean votes of the videos, biases 0, inconsistencies equal to the standard deviation of the residuals of each subject (0 when subjects are disregarded) and ambiguities equal to the standard deviation of the residuals of each content (0 when contents are disregarded).", "quantifier": "All readers with finite votes, classes and options.", "why_tests_cant": "Start values are internal; tests see only the converged result.", "anchors": ["sureal/subjective_model.py:MaximumLikelihoodEstimationModel._run_modeling"]}
{"id": "C79", "title": "LIVE_DMOS", "statement": "The LIVE_DMOS model scores each video by the mean of (z+3)*100/6 over its z-scored differential votes, together with any other preprocessing and the final options; asking for differential or z-scoring again is refused; errors of the preprocessing are passed on. The scores lie in [0, 100].", "quantifier": "All readers and options.", "why_tests_cant": "Tests compare single scores of one dataset.", "anchors": ["sureal/subjective_model.py:LiveDmosModel._run_modeling"]}
{"id": "C80", "title": "Least squares model", "statement": "On complete votes the least squares model returns the mean opinion scores, and as bias of a subject the distance of the subject's mean from the overall mean, whatever pseudo-inverse is computed; a single missing vote makes all scores and biases missing; subject rejection and repeated votes are refused.", "quantifier": "All readers, options and pseudo-inverse routines.", "why_tests_cant": "Tests cover one dataset and one linear algebra library.", "anchors": ["sureal/subjective_model.py:LeastSquaresModel._run_modeling"]}
{"id": "C81", "title": "Early maximum likelihood model", "statement": "The legacy model starts from mean votes, zero biases and the standard deviations of the residuals; each pass moves biases, then inconsistencies (or their logarithms), then scores a tenth of a Newton step for the log-likelihood; it ends at the first pass that moves the scores by less than 1e-8 or after 5000 passes, reports the values reached, centred unless switched off, and raises ValueError if the scores become missing; a video without votes always does that; subject rejection and repeated votes are refused.", "quantifier": "All readers with finite votes, all options.", "why_tests_cant": "Derivatives and stopping rule are not visible in converged numbers.", "anchors": ["sureal/subjective_model.py:MaximumLikelihoodEstimationLegacyModel._run_modeling"]}
{"id": "C82", "title": "Scores per subject", "statement": "The per-subject model returns the preprocessed votes themselves, and its aggregated dataset has one copy of a video per score, in order, with the score as groundtruth; a video whose number of scores differs from the number of recorded votes is refused.", "quantifier": "All readers, options and conversion arguments.", "why_tests_cant": "Tests cover one dataset without missing votes.", "anchors": ["sureal/subjective_model.py:PerSubjectModel._run_modeling", "sureal/dataset_reader.py:RawDatasetReader.to_persubject_dataset"]}
{"id": "C83", "title": "Numerical inverse of a function", "statement": "inversefunc returns, for every requested value a strictly monotone function takes on its interval, the point where it is taken (the ends exactly, interior points whenever the scalar minimiser reaches the minimum of the squared distance it is handed, which is the squared distance on the interval and plus infinity outside it); it raises ValueError as soon as one requested value lies beyond the given or computed limits of the image, strictly on the side of an excluded end; arguments of a wrong shape, ends out of order, equal values at the two start points and a function raising at an end whose value is needed all end in ValueError.", "quantifier": "All functions over extended reals that compute a strictly monotone real function on the interval (any behaviour outside), all intervals (bounded, half-bounded, unbounded; open or closed ends), all lists of requested values, all minimisers.", "why_tests_cant": "The doctests invert five library functions at a few points.", "anchors": ["sureal/tools/inverse.py:inversefunc", "sureal/tools/inverse.py:_normparams_inversefunc", "sureal/tools/inverse.py:_get_valid_refpoints", "sureal/tools/inverse.py:_auto_ymin", "sureal/tools/inverse.py:_auto_ymax"]}
{"id": "C84", "title": "Reconstruction statistics", "statement": "The reconstruction statistics compare votes and reconstructions at the positions where both are there: root mean squared distance, linear and rank correlation (missing when one side has no spread), ValueError with fewer than two such positions, AssertionError for different shapes, (0, 1, 1) for a perfect reconstruction. For every MOS class and all options the distance is the smallest possible with one score per video, the linear correlation is positive and its square is the share of the variance of the votes that is explained.", "quantifier": "All arrays of finite or missing votes, all readers, MOS classes and keyword arguments for which the model has a result.", "why_tests_cant": "Tests compare three numbers on a few datasets; optimality and the link between the statistics quantify over all votes.", "anchors": ["sureal/routine.py:run_subjective_models", "sureal/subjective_model.py:MosModel"]}
{"id": "C85", "title": "Running lists of models on datasets and samples of subjects", "statement": "run_subjective_models chooses the importer by the ending of the path (AssertionError otherwise), runs the models in order, ends with the first exception, and otherwise returns every result with the paths of the videos and, exactly when it has votes and reconstructions, their statistics; every dataset the models accept is reported. get_sample_stats does so per dataset; with a fraction in (0, 1] (AssertionError otherwise) on the votes of floor(n * fraction) drawn subjects, and the observers listed are those whose votes are used.", "quantifier": "All paths, importers, readers, lists of models, datasets, fractions and draws.", "why_tests_cant": "The tests run it on two complete datasets with fixed fractions; which subjects are drawn is random.", "anchors": ["sureal/routine.py:run_subjective_models", "sureal/routine.py:get_sample_stats", "sureal/dataset_reader.py:SelectSubjectRawDatasetReader"]}
{"id": "C86", "title": "Coverage percentages of a validation", "statement": "validate_with_synthetic_dataset refuses probabilities outside [0, 1), ends with the first model that raises, and otherwise has one entry per model type in order of appearance: the result of the last model of the type, with the three coverage percentages of the last model of the type that has estimates, margins and truth. It has a result exactly when all percentages that are due exist (matching lengths). The percentages of an entry are those of its result.", "quantifier": "All lists of models and results (with repeated types), all truths, all probabilities.", "why_tests_cant": "The tests use distinct types and matching lengths only.", "anchors": ["sureal/routine.py:validate_with_synthetic_dataset", "sureal/routine.py:get_ci_percentage"]}
{"id": "C87", "title": "Histogram distribution functions, counts and logistic functions", "statement": "get_cdf gives for each of its equal cells the share of the data below the upper limit of the cell (1 for the last), never decreases and ends with 1; get_pdf gives the counts per cell (cells are half open, the last closed), as a density divided by number and width, with centres in the middle and total mass 1; fewer than one cell and non-finite data raise ValueError; without data shares and densities are NaN. histc counts every value that is not NaN. vectorized_logistic and the form with sech are the same function, the derivative of the logistic distribution function, with its only maximum at the location and symmetric about it.", "quantifier": "All lists of data, all numbers of cells, all locations, positive scales and points.", "why_tests_cant": "No test calls get_cdf, get_pdf or histc; constant, empty and non-finite data and values on cell limits are corner cases.", "anchors": ["sureal/tools/stats.py:get_cdf", "sureal/tools/stats.py:get_pdf", "sureal/tools/stats.py:histc", "sureal/tools/stats.py:vectorized_logistic", "sureal/tools/stats.py:sech"]}
{"id": "C88", "title": "Numerical convolution of two densities", "statement": "ConvolveTwoPdf at a point of its grid is the mass of the sum of two independent variables placed at the middles of the cells, at a point less than one step away, divided by the step; between two points it is linear; outside the grid it is the product of the truncations; it is not negative for non-negative densities, has at most the product of the masses as total mass, does not depend on the order of the densities nor on earlier evaluations, refuses truncations not reached to the right of zero; for symmetric densities it is symmetric.", "quantifier": "All densities, all truncations and steps, all points.", "why_tests_cant": "Tests evaluate few densities at few points with a tolerance that hides a shift of one step.", "anchors": ["sureal/tools/stats.py:ConvolveTwoPdf"]}
{"id": "C89", "title": "File names and version strings", "statement": "get_file_name_with_extension is what follows the last slash; for a name stem.ext (stem not only dots, no dot in ext) get_file_name_without_extension is the stem and get_file_name_extension the extension, whatever the directory; names without a separating dot are kept whole; the extension is part of the name. A VERSION is accepted iff it consists of letters, digits, dot, hyphen and underscore; type and version strings determine the type and the version.", "quantifier": "All paths, types and versions.", "why_tests_cant": "The doctests have eleven paths with one directory level and one or two dots.", "anchors": ["sureal/tools/misc.py:get_file_name_without_extension", "sureal/tools/misc.py:get_file_name_with_extension", "sureal/tools/misc.py:get_file_name_extension", "sureal/core/mixin.py:TypeVersionEnabled"]}
{"id": "C90", "title": "Results cached in one file", "statement": "A function decorated with persist_to_file returns the function's values and evaluates it at most once per argument, also across programs; a missing file is an empty cache.", "quantifier": "All functions, files and sequences of calls.", "why_tests_cant": "It is not tested.", "anchors": ["sureal/tools/decorator.py:persist_to_file"]}
{"id": "C91", "title": "What the commands do", "statement": "cmd_deprecated.main returns 2 with fewer than two arguments and 1 for a name that is not the TYPE of exactly one loaded class, running nothing; otherwise it runs that model on the path with the plots of its kind, prints if --print is among the further arguments, shows the figures or writes them and sureal.json to the directory after the first --output-dir, and returns 0; all models it lists are accepted. __main__.main runs only models of one kind, with the plots asked for, writes output.json or prints, and returns 0. An exception ends either at that point; of the models or of formatting, before anything is shown or written.", "quantifier": "All arguments, class hierarchies that are trees, results and failures of the operations.", "why_tests_cant": "The tests start the commands on a few datasets and look at the return code only.", "anchors": ["sureal/cmd_deprecated.py:main", "sureal/__main__.py:main"]}
{"id": "C92", "title": "The reference programs agree with the package", "statement": "demo_p910.py (and demo.py of P.913) reads a file exactly if its rows are a non-empty table of numbers, with the votes of its cells, and raises ValueError otherwise. On the same votes the alternating projection of the reference programs returns exactly what the package's alternative projection classes return for quality, its standard deviation, bias and inconsistency, rounding included, and raises the same exceptions; demo_p910.py is demo_bt500.py with one repetition. With finite votes it succeeds if and only if every PVS has a vote; the biases sum to zero if every subject voted; votes without noise are decomposed exactly.", "quantifier": "All files, vote arrays with missing votes and repetitions, readers and preprocessing options; the equality in every arithmetic.", "why_tests_cant": "The reference programs are not tested.", "anchors": ["itut_p910_demo/demo_p910.py:read_csv_into_2darray", "itut_p910_demo/demo_p910.py:run_alternating_projection", "itut_p913_demo/demo.py:run_alternating_projection", "itur_bt500_demo/demo_bt500.py:run_alternating_projection", "sureal/subjective_model.py:SubjectMLEModelProjectionSolver2"]}
{"id": "C93", "title": "Repetitions in the reference program's files", "statement": "demo_bt500.py reads tables of the same size separated by rows with a single comma as the repetitions, and refuses files whose repetition tables have another size.", "quantifier": "All files.", "why_tests_cant": "The reference programs are not tested.", "anchors": ["itur_bt500_demo/demo_bt500.py:read_csv_into_3darray"]}
{"id": "C94", "title": "What the table converter writes", "statement": "For a table with distinct columns, mos_to_sureal.py ends normally only with a JSON dataset named after the file that has one distorted video per distinct PVS ID (stripped, of the form db_src_hrc), with the first numbers of src and hrc as content and asset id, the path in the given directory and the whole-number ratings of the first row of that PVS by subject column, and one reference video per distinct source. Every well-formed table is converted, whatever the iteration order of sets, and RawDatasetReader accepts the result and returns each subject's rating of each PVS with the subjects sorted by name. Without the column PVS_ID or with an ID of another form it prints nothing and exits with 1; a source without a digit raises AttributeError; a table without rating columns is never converted.", "quantifier": "All tables, names, directories, extensions and set iteration orders.", "why_tests_cant": "The script is not tested.", "anchors": ["resource/util/mos_to_sureal.py:convert_file", "resource/util/mos_to_sureal.py:get_ids_from_pvs", "resource/util/mos_to_sureal.py:extract_scores_from_record"]}
{"id": "C95", "title": "The table converter keeps the table", "statement": "The dataset written by mos_to_sureal.py contains the ratings of every row as they are in the table, gives different PVSs different pairs of content and asset ids, and is the only thing on standard output.", "quantifier": "All tables that are converted.", "why_tests_cant": "The script is not tested.", "anchors": ["resource/util/mos_to_sureal.py:convert_file"]}
{"id": "C96", "title": "What the figures of the votes show", "statement": "For votes that are numbers or missing, run_subjective_models hands to matplotlib: as raw_scores the matrix of the mean vote of each subject for each video (NaN where there is none); as raw_counts and raw_counts_per_subject, for every video (subject) and every value that occurs, how many subjects (videos) have this mean, ordered by line and value, with ValueError exactly when there is no vote; as residual images, one per result with scores (and biases) in the order of the models, the mean minus the score (minus score and bias); as quality_scores_vs_raw_scores, a panel per subject with its mean votes against the scores, on axes from the smallest to the largest mean.", "quantifier": "All vote arrays, results and given axes.", "why_tests_cant": "Tests only check that some figures can be drawn; the data is not compared.", "anchors": ["sureal/routine.py:run_subjective_models"]}
{"id": "C97", "title": "The figures drawn are those asked for", "statement": "For a list of names exactly these figures are drawn, in a fixed order, up to the first that raises; 'all', also in a list, draws all nine, None draws nothing; a text that is the name of a figure draws that figure only.", "quantifier": "All values of do_plot, all datasets and results.", "why_tests_cant": "Tests use a few combinations.", "anchors": ["sureal/routine.py:run_subjective_models"]}
{"id": "C98", "title": "Sizes of figures", "statement": "An image keeps the proportions of its matrix, at 1/30 inch a cell up to 3000 rows and columns, and is never larger than 102 inches; a plot is max(sqrt(n)+2, 10) by 3 inches; the grid of panels has a place for each subject and no more columns than needed.", "quantifier": "All numbers of rows, columns and subjects.", "why_tests_cant": "Large datasets are not tested.", "anchors": ["sureal/routine.py:_get_imshow_width_and_height", "sureal/routine.py:_get_plot_width_and_height", "sureal/routine.py:run_subjective_models"]}
{"id": "C99", "title": "Winning rates", "statement": "The matrix of visualize_pc_dataset has in cell (i, j) the number of preferences of i over j divided by the number of subjects that compared them, a number between 0 and 1 that is 1 minus the one in cell (j, i), and NaN exactly when nobody compared them.", "quantifier": "All paired comparison datasets the reader accepts, all pairs of different videos.", "why_tests_cant": "The function is not tested.", "anchors": ["sureal/routine.py:visualize_pc_dataset"]}
{"id": "C100", "title": "The figure of quality scores", "statement": "Every result with scores is drawn once, in its colour, with the scores of all videos in one order: that of the dataset, or the ascending one of the first result if sorting is asked for; each score has its own margins, and the bars of different videos do not overlap. Without results or with more than eight that have scores it raises IndexError, KeyError if the first has none, AssertionError for an unknown kind of plot.", "quantifier": "All results, plot types, orders that sort.", "why_tests_cant": "Tests look at no figure.", "anchors": ["sureal/routine.py:run_subjective_models"]}
{"id": "C101", "title": "The figures of subjects and contents", "statement": "Biases, inconsistencies and (on given axes) rejections of every result are drawn once, one value per subject in the order of the subjects, above the names of the subjects in the last result with biases and names, or above numbers; a number of names other than that of the biases is an AssertionError. Content ambiguities are drawn above the name of the last reference video with this content id; a reference video without a name is a KeyError, one with an id out of range an IndexError.", "quantifier": "All results of a study with n subjects or n contents, all reference videos.", "why_tests_cant": "Tests look at no figure.", "anchors": ["sureal/routine.py:run_subjective_models"]}
{"id": "C102", "title": "The figures of the validation", "statement": "On each of the five given axes every model that has the estimate draws, in the order of the models, the pairs of truth and estimate of all places, the diagonal from the smallest to the largest truth, in its colour and marker, with the root mean squared error; error bars with the percentage of covered truths if asked for and there are margins. Nothing else is drawn, and the figures change no returned result. Lists of different lengths are an AssertionError in the panels of scores and wherever there are margins; the panels of biases, inconsistencies and ambiguities show their common part.", "quantifier": "All truths, results of models, axes, colours and markers.", "why_tests_cant": "Tests look at no figure.", "anchors": ["sureal/routine.py:validate_with_synthetic_dataset"]}
{"id": "C103", "title": "The figures comparing models", "statement": "For every dataset every target and every compared model is drawn: the column number k shows the scores of the k-th target against those of the k-th compared model for every video, the differences with their mean and standard deviation, and the two correlation coefficients, under the names with the whole percents of the fraction of subjects. Models whose scores differ in number or with fewer than two videos are a ValueError, and so is an empty list of compared models. The stored results lose the raw scores and the reconstructions and nothing else.", "quantifier": "All lists of models, fractions, results of the runs.", "why_tests_cant": "The test calls the function and looks at no output.", "anchors": ["sureal/routine.py:plot_scatter_target_vs_compared_models", "sureal/routine.py:_get_sample_stats_wrapper"]}
{"id": "C104", "title": "The models of a validation analyse the same votes", "statement": "In validate_with_synthetic_dataset all models analyse the same votes, and the dataset written out holds exactly these. With a missing probability they are votes of one synthetic array of which some are removed; without noise they are quality plus biases. The run is the same for every state of the random generator when a seed is given.", "quantifier": "All datasets, parameters, seeds, missing probabilities, lists of models, generators and generator states; both synthetic readers.", "why_tests_cant": "The tests check rounded averages of a few models; the votes a model saw are not looked at.", "anchors": ["sureal/routine.py:validate_with_synthetic_dataset", "sureal/dataset_reader.py:SyntheticRawDatasetReader.opinion_score_3darray", "sureal/dataset_reader.py:SyntheticLogisticRawDatasetReader.opinion_score_3darray", "sureal/dataset_reader.py:MissingDataRawDatasetReader.opinion_score_3darray", "sureal/dataset_reader.py:MockedRawDatasetReader.to_dataset"]}
{"id": "C105", "title": "MOS of whole votes in double precision", "statement": "In binary64 arithmetic the MOS of a video with whole-number votes is the exact mean of the votes present rounded once to nearest, in whatever order they are added, and NaN if there is none; videos are ordered as their exact means, ties apart.", "quantifier": "All readers and arrays of whole or missing votes with at most 2^52 votes per video and absolute sum below 2^53; every exp and log.", "why_tests_cant": "Tests compare a few averages to four places; rounding and the order of summation need all votes.", "anchors": ["sureal/subjective_model.py:MosModel._run_modeling", "sureal/subjective_model.py:MosModel._get_mos_and_stats"]}
{"id": "C106", "title": "Error of the MOS in double precision", "statement": "In binary64 arithmetic the MOS of n finite votes differs from their exact mean by at most ((1+u)^n - 1) times the mean of the absolute values plus half the smallest number, u = 2^-53; sums in every other order have the same bound.", "quantifier": "All readers and arrays of finite or missing votes with at most 2^52 votes per video and absolute sum at most 2^1022; every exp and log.", "why_tests_cant": "Tests compare a few averages to four places.", "anchors": ["sureal/subjective_model.py:MosModel._run_modeling", "sureal/subjective_model.py:MosModel._get_mos_and_stats"]}
{"id": "C107", "title": "MOS in double precision lies between the votes", "statement": "In binary64 arithmetic the MOS of a video lies between its smallest and its largest vote.", "quantifier": "All readers and arrays of finite or missing votes without overflow.", "why_tests_cant": "Tests use whole votes, for which it holds.", "anchors": ["sureal/subjective_model.py:MosModel._run_modeling", "sureal/subjective_model.py:MosModel._get_mos_and_stats"]}
{"id": "C108", "title": "Spread and margins in double precision", "statement": "In binary64 arithmetic the standard deviation, the standard deviation of the mean and the margins of a video with two votes or more are finite and not negative, and 0 exactly if all its votes are the same; with fewer votes they are NaN.", "quantifier": "All readers and arrays of finite or missing votes whose squares do not overflow.", "why_tests_cant": "Tests compare a few numbers to four places; the sign, the zeros and the NaNs need all votes.", "anchors": ["sureal/subjective_model.py:MosModel._get_mos_and_stats"]}
{"id": "C109", "title": "MOS in double precision and the order of the votes", "statement": "In binary64 arithmetic the MOS of a video does not depend on the order of its votes.", "quantifier": "All pairs of readers and arrays of finite or missing votes.", "why_tests_cant": "Tests use one order and whole votes.", "anchors": ["sureal/subjective_model.py:MosModel._run_modeling", "sureal/subjective_model.py:MosModel._get_mos_and_stats"]}
{"id": "C110", "title": "Files of converted datasets hold what the conversions return", "statement": "Each to_*_dataset_file method writes under its path the dataset that the conversion of the same name returns for the same arguments (its public attributes), changes no other file, and writes nothing when the conversion raises.", "quantifier": "All datasets, options, paths and contents of the file system.", "why_tests_cant": "Every combination of conversion, options and dataset; the tests write each kind of file once, without options.", "anchors": ["sureal/dataset_reader.py:RawDatasetReader.to_aggregated_dataset_file", "sureal/dataset_reader.py:RawDatasetReader.to_persubject_dataset_file", "sureal/dataset_reader.py:RawDatasetReader.to_pc_dataset_file", "sureal/dataset_reader.py:RawDatasetReader.to_combined_overlap_dataset_file", "sureal/dataset_reader.py:RawDatasetReader.to_dictionary_style_dataset_file"]}
{"id": "C111", "title": "Each open figure is saved once under its own name", "statement": "DisplayConfig.show with write_to_dir makes the directory (workspace/output when None) and saves each open figure once, in the format asked for (png by default), under a name of its own that is not that of a result file; without write_to_dir nothing is written.", "quantifier": "All sets of figures, directories and formats.", "why_tests_cant": "Figures need a display and are not checked by tests.", "anchors": ["sureal/config.py:DisplayConfig.show"]}
{"id": "C112", "title": "Paths of the package lie below its directory", "statement": "Every path given by SurealConfig starts with the directory of the package (and of the function's folder).", "quantifier": "All lists of components.", "why_tests_cant": "Infinitely many components.", "anchors": ["sureal/config.py:SurealConfig.root_path", "sureal/config.py:SurealConfig.workspace_path", "sureal/config.py:SurealConfig.workdir_path", "sureal/config.py:SurealConfig.resource_path", "sureal/config.py:SurealConfig.test_resource_path"]}
{"id": "C113", "title": "Marking a function deprecated changes nothing but a warning", "statement": "A call of a deprecated function ends as the function does and always shows the warning, and leaves the warning filters as they were.", "quantifier": "All functions, arguments and warning filters.", "why_tests_cant": "All functions and all states of the warning filters.", "anchors": ["sureal/tools/decorator.py:deprecated"]}
{"id": "C114", "title": "Memoised methods keep a cache per object", "statement": "Calls of a memoized method on an object return what the method returns for that object, whatever was called on other objects, and evaluate it at most once per object and arguments.", "quantifier": "All objects and call histories.", "why_tests_cant": "All histories over all objects.", "anchors": ["sureal/tools/decorator.py:memoized.__get__", "sureal/tools/decorator.py:memoized.__call__"]}
{"id": "C115", "title": "A test with collected errors fails if and only if a comparison fails", "statement": "With MyTestCase every comparison of a test is made, one message is kept for each that fails, and the test passes exactly if none does; NaN is almost equal to nothing.", "quantifier": "All sequences of comparisons.", "why_tests_cant": "The test helper itself is not tested.", "anchors": ["sureal/tools/misc.py:MyTestCase.assertAlmostEqual", "sureal/tools/misc.py:MyTestCase.tearDown"]}
{"id": "C116", "title": "Final options on scores per subject", "statement": "With normalize_final the scores per subject are centred and scaled by the mean and standard deviation of all scores, with transform_final each is mapped by the polynomial; missing scores stay missing and recorded ones stay recorded.", "quantifier": "All readers and options.", "why_tests_cant": "The options are never tested with this model, nor with missing votes.", "anchors": ["sureal/subjective_model.py:PerSubjectModel._run_modeling", "sureal/subjective_model.py:SubjectiveModel._postprocess_model_result"]}
{"id": "C117", "title": "Parameters of the validation script", "statement": "The script draws its synthetic parameters from the seed alone: in the scenario of ambiguous videos the subjects have no bias and no inconsistency and the standard deviations of the scores are the ambiguities over the root of the number of subjects; in the scenario with observers the contents are neutral, and the biases add up to zero if this is forced. Other scenarios, seeds outside 32 bits and classes without bootstrapping are refused.", "quantifier": "All seeds, options, classes and earlier draws.", "why_tests_cant": "The script is not tested, and the parameters are random.", "anchors": ["resource/script/run_synthetic_validate_ci.py:validate_with_synthetic_dataset_quality_wrapper"]}
{"id": "C118", "title": "The caller's parameters stay as they are", "statement": "A dictionary of synthetic parameters given to the script is not changed by the call.", "quantifier": "All dictionaries and options.", "why_tests_cant": "The script is not tested; a change in place shows only in a later use of the dictionary.", "anchors": ["resource/script/run_synthetic_validate_ci.py:validate_with_synthetic_dataset_quality_wrapper"]}
{"id": "C119", "title": "Averages over ten seeds", "statement": "The averages the script prints are the means of the percentages of the validations with seeds 0 to 9, lie between 0 and 100, and do not depend on what was drawn before.", "quantifier": "All validation results and earlier draws.", "why_tests_cant": "The script is not tested and runs for minutes.", "anchors": ["resource/script/run_synthetic_validate_ci.py:run_synthetic_validate_mos", "resource/script/run_synthetic_validate_ci.py:run_synthetic_validate_mleco"]}
{"id": "C120", "title": "The projection solver improves the fit in every pass", "statement": "Each pass of the projection solver lowers the sum over all votes of the logarithm of the mean squared residual of their subject plus 1e-8, or leaves the quality scores as they are; so its result fits the votes no worse than the mean opinion scores with any biases, and better as soon as there is a second pass.", "quantifier": "All votes, with any videos, subjects, repetitions and missing votes, and all passes.", "why_tests_cant": "Tests compare a few final numbers; progress needs every pass on all votes.", "anchors": ["sureal/subjective_model.py:SubjectMLEModelProjectionSolver._run_modeling", "sureal/tools/misc.py:weighed_nanmean_2d"]}
{"id": "C121", "title": "The projection solver converges", "statement": "In exact arithmetic the change of the quality scores from pass to pass tends to zero, so the threshold of 1e-8, like any other, is met after finitely many passes.", "quantifier": "All votes with at least one per video; all thresholds.", "why_tests_cant": "A test sees a few datasets converge.", "anchors": ["sureal/subjective_model.py:SubjectMLEModelProjectionSolver._run_modeling"]}
{"id": "C122", "title": "Where the projection solver comes to rest", "statement": "A pass leaves scores and biases unchanged exactly if all partial derivatives of the misfit of C120 are zero there.", "quantifier": "All votes with at least one per video and subject; all scores and biases.", "why_tests_cant": "It is about all points, and about derivatives.", "anchors": ["sureal/subjective_model.py:SubjectMLEModelProjectionSolver._run_modeling"]}
{"id": "C123", "title": "Bradley-Terry strengths at rest are the most likely ones, and the only ones", "statement": "The Bradley-Terry loop leaves a probability vector unchanged exactly if no positive vector gives the counts a higher likelihood; when comparisons connect all videos there is at most one such vector, and the gradient of the Newton solver vanishes exactly at its logarithms plus a common offset.", "quantifier": "All non-negative counts in which every video won, with any number of videos; all vectors.", "why_tests_cant": "It compares a vector with all others, and two solvers on all counts.", "anchors": ["sureal/pc_subjective_model.py:BradleyTerryMlePairedCompSubjectiveModel.resolve_model", "sureal/pc_subjective_model.py:BradleyTerryNewtonRaphsonPairedCompSubjectiveModel._run_modeling"]}
{"id": "C124", "title": "The Bradley-Terry loop converges and ends", "statement": "If chains of wins lead from every video to every other, the strengths converge to the most likely ones in exact arithmetic, and the loop, which has no limit on its passes, ends.", "quantifier": "All non-negative counts with at least two videos whose wins link all videos.", "why_tests_cant": "A test sees a few loops end; termination is about all counts.", "anchors": ["sureal/pc_subjective_model.py:BradleyTerryMlePairedCompSubjectiveModel.resolve_model"]}
{"id": "C125", "title": "When Bradley-Terry has a solution", "statement": "When comparisons connect all videos, most likely strengths exist exactly if chains of wins lead from every video to every other.", "quantifier": "All non-negative counts with at least two videos.", "why_tests_cant": "It is about all counts and all vectors.", "anchors": ["sureal/pc_subjective_model.py:BradleyTerryMlePairedCompSubjectiveModel.resolve_model"]}
{"id": "C126", "title": "Thurstone scores are determined up to an offset", "statement": "Scores at which the slope of the Thurstone likelihood vanishes are most likely among all scores, and two such vectors differ by a common offset when comparisons connect all videos. The code minimises twice the negative likelihood with 1e-8 / M added to each probability, which exceeds the likelihood by at most that number times the sum of the counts over the probabilities.", "quantifier": "All non-negative counts and all scores, for the standard normal distribution function.", "why_tests_cant": "It compares a vector with all others.", "anchors": ["sureal/pc_subjective_model.py:ThurstoneMlePairedCompSubjectiveModel.resolve_model", "sureal/pc_subjective_model.py:ThurstoneMlePairedCompSubjectiveModel.neg_log_likelihood_function"]}
{"id": "C127", "title": "Shapes, ends and locality hold whatever the arithmetic", "statement": "In any arithmetic, so with machine numbers too, the plain mean opinion score and its deviation and intervals are a function of the votes of the video alone, wherever it stands; every class of mean opinion scores returns one entry per video with any options; the projection solver ends after at most 1000 passes or raises ValueError or KeyError; and its results have one entry per video or accepted subject.", "quantifier": "All arithmetics (any operations and constants), all datasets, all options.", "why_tests_cant": "Tests run one arithmetic on a few datasets; rounding could stop a loop from ending on others.", "anchors": ["sureal/subjective_model.py:MosModel._get_mos_and_stats", "sureal/subjective_model.py:SubjectMLEModelProjectionSolver._run_modeling", "sureal/subjective_model.py:SubjectiveModel._get_opinion_score_3darray_with_preprocessing"]}
{"id": "C128", "title": "Which model has the lower information criterion does not depend on the unit of the scale", "statement": "Expressing the same votes on another linear scale leaves the order of the AIC and of the BIC of MOS and BR_MOS as it is, since the reported likelihood changes by the same number for both.", "quantifier": "All datasets and all increasing linear changes of scale.", "why_tests_cant": "It relates four runs on all pairs of datasets.", "anchors": ["sureal/subjective_model.py:MosModel._get_mos_and_stats", "sureal/subjective_model.py:BiasremvMosModel._run_modeling"]}
{"id": "C129", "title": "Thurstone scores exist exactly when every video stands above every other", "statement": "For comparisons that connect all the videos, the Thurstone likelihood attains a maximum if and only if from every video a chain of wins leads to every other.", "quantifier": "All numbers of videos and all tables of nonnegative counts.", "why_tests_cant": "Existence and absence of a maximum over all score vectors cannot be sampled.", "anchors": ["sureal/pc_subjective_model.py:ThurstoneMlePairedCompSubjectiveModel.resolve_model"]}
{"id": "C130", "title": "The objective of the Thurstone solver has a least value whenever the likelihood has a maximum", "statement": "The function that is handed to the optimiser, which adds 1e-8 / M to each probability, has a least value exactly when every video stands above every other.", "quantifier": "All numbers of videos and all tables of nonnegative counts.", "why_tests_cant": "Existence and absence of a minimum over all score vectors cannot be sampled; the failing tables are large.", "anchors": ["sureal/pc_subjective_model.py:ThurstoneMlePairedCompSubjectiveModel.resolve_model"]}
{"id": "C131", "title": "Bradley-Terry returns scores exactly when every video won a comparison", "statement": "The loop of the Bradley-Terry model, which has no limit on the passes, ends with scores if and only if every video was preferred at least once; otherwise ValueError is raised in one of the first two passes. Scores are also returned when no scores are most likely.", "quantifier": "All numbers of videos below 10^8, all tables of nonnegative counts and all arrays of votes.", "why_tests_cant": "That an unbounded loop ends cannot be tested for all tables.", "anchors": ["sureal/pc_subjective_model.py:BradleyTerryMlePairedCompSubjectiveModel.resolve_model"]}
{"id": "C132", "title": "Raising a vote never lowers the score of its video", "statement": "If one vote of a dataset is replaced by a higher one, the quality score of its video under MOS, BR_MOS, ZS_MOS and SR_MOS is not lower than before; under MOS it rises by the difference divided by the number of votes for the video and no other score changes.", "quantifier": "All datasets of finite votes, with any votes missing and any repetitions; any vote and any higher value.", "why_tests_cant": "The claim compares the results of two runs for every dataset and every change.", "anchors": ["sureal/subjective_model.py:MosModel", "sureal/subjective_model.py:BiasremvMosModel", "sureal/subjective_model.py:ZscoringMosModel", "sureal/subjective_model.py:SubjrejMosModel", "sureal/subjective_model.py:SubjectiveModel._get_opinion_score_3darray_with_preprocessing"]}
{"id": "C133", "title": "The order of videos and subjects in a dataset only reorders the results of the MOS classes", "statement": "If a dataset lists its videos and its subjects in another order, every class of the MOS family (MOS, DMOS, z-scored, bias-removed, with any subject rejection) with any options returns the same quality scores, standard deviations, confidence intervals, ambiguities, biases, rejection flags and rejection statistics, listed in that order, and the same dof, log-likelihood, AIC and BIC; and it succeeds whenever it did before.", "quantifier": "All datasets, all thirteen classes, all options, all orders of videos and subjects.", "why_tests_cant": "Factorially many orders of unbounded datasets under every class and option.", "anchors": ["sureal/subjective_model.py:SubjectiveModel._get_opinion_score_3darray_with_preprocessing", "sureal/subjective_model.py:MosModel._get_mos_and_stats", "sureal/dataset_reader.py:RawDatasetReader.opinion_score_3darray"]}
{"id": "C134", "title": "A figure is drawn on the axes given for it", "statement": "Every panel of run_subjective_models is drawn on the axes that ax_dict holds under 'ax_' and its name, and otherwise in a new figure of the size of its data (1/30 inch a cell for an image; max(sqrt(n)+2, 10) by 3 inches for a plot of n columns, 8 inches high for the subjects); no given axes are drawn on by two panels.", "quantifier": "All values of ax_dict and do_plot, all datasets and results.", "why_tests_cant": "Tests look at no figure and pass few axes.", "anchors": ["sureal/routine.py:run_subjective_models"]}
{"id": "C135", "title": "The colour maps", "statement": "cmap_factory knows the maps red2green and red2green2 and refuses other names with AssertionError; the stops of both go up from 0 to 1 with white at one half, and are symmetric about it.", "quantifier": "All names and stops.", "why_tests_cant": "The function is not tested.", "anchors": ["sureal/tools/misc.py:cmap_factory"]}
{"id": "C136", "title": "Helpers report failures", "statement": "run_process returns 0 exactly when the process ended with code 0, raises AssertionError for any other code, also a negative one, and passes on the exception of a process that could not start; override returns the method exactly when the interface has it and raises AssertionError otherwise; the interval of a Timer is the end minus the start.", "quantifier": "All exit codes, exceptions, interfaces, methods and clock values.", "why_tests_cant": "The helpers are not tested with failures.", "anchors": ["sureal/tools/misc.py:run_process", "sureal/tools/decorator.py:override", "sureal/tools/misc.py:Timer"]}
{"id": "C137", "title": "Mass and mean of the density of a sum of two uniforms", "statement": "convolution_of_two_uniforms(., loc1, s1, loc2, s2) is the convolution of the uniform densities of widths s1 and s2 around loc1 and loc2: its integral is 1 and its mean loc1 + loc2.", "quantifier": "All real locations, all positive widths, all points.", "why_tests_cant": "Integrals over a continuum; the doctests only use locations 0.", "anchors": ["sureal/tools/stats.py:convolution_of_two_uniforms"]}
{"id": "C138", "title": "The densities of the likelihoods", "statement": "vectorized_gaussian(., m, s) is a positive function of integral 1, mean m and variance s squared; vectorized_logistic(., m, s), and the logistic density inside the convolution, are positive functions of integral 1 and mean m. The likelihood of a vote under the default density is that of the generative model: the density at the vote of the sum of two independent normal numbers, one with the subject's bias and inconsistency, one with the video's quality and its content's ambiguity.", "quantifier": "All real means, all positive scales, all points; all arrays, parameter vectors, votes and content ids with positive inconsistency and ambiguity.", "why_tests_cant": "Improper integrals over the whole line, for a continuum of parameters.", "anchors": ["sureal/tools/stats.py:vectorized_gaussian", "sureal/tools/stats.py:vectorized_logistic", "sureal/subjective_model.py:MaximumLikelihoodEstimationModel.loglikelihood_fcn"]}
{"id": "C139", "title": "The order of videos and subjects in a dataset only reorders the results of the MLE classes", "statement": "If a dataset lists its videos and its subjects in another order, every class of the MLE family with any gradient method, density and options returns the same quality scores, biases and inconsistencies with their standard deviations and confidence intervals, listed in that order, the same content ambiguities, the same raw and reconstructed scores in that order, the same number of iterations, dof, log-likelihood, AIC and BIC; and it succeeds whenever it did before.", "quantifier": "All datasets with list or dict votes, all classes, all options, all orders of videos and subjects.", "why_tests_cant": "Factorially many orders of unbounded datasets, and an iteration of thousands of passes on each.", "anchors": ["sureal/subjective_model.py:MaximumLikelihoodEstimationModel", "sureal/subjective_model.py:SubjectiveModel._get_opinion_score_3darray_with_preprocessing", "sureal/dataset_reader.py:RawDatasetReader"]}
{"id": "C140", "title": "The order of videos and subjects in a dataset only reorders the results of the remaining rating models", "statement": "If a dataset lists its videos and its subjects in another order, the projection classes (P910 among them) with any options, LIVE DMOS, the early maximum likelihood model, least squares on complete votes and the scores per subject return the same numbers, listed in that order, with the same number of iterations, dof, log-likelihood, AIC and BIC; and they succeed whenever they did before. With subject rejection the kept subjects are the same ones.", "quantifier": "All datasets with list or dict votes, all options, all orders of videos and subjects; any function in the place of the chi-square quantile, any matrix function that inverts for least squares.", "why_tests_cant": "Factorially many orders of unbounded datasets, and an iteration on each.", "anchors": ["sureal/subjective_model.py:SubjectMLEModelProjectionSolver", "sureal/subjective_model.py:LiveDmosModel", "sureal/subjective_model.py:LeastSquaresModel", "sureal/subjective_model.py:LegacyMaximumLikelihoodEstimationModel", "sureal/subjective_model.py:PerSubjectModel"]}
{"id": "C141", "title": "The maximum likelihood models follow the rating scale", "statement": "If every vote x is replaced by k*x + t with k not 0 and the threshold of the stop test is multiplied by |k|, MLE, MLE_CO and MLE_SO take the same number of passes and return the same result on the new scale: quality scores and reconstructed votes k*q + t, biases times k, inconsistencies, ambiguities, their standard deviations and all interval half widths times |k|, the same dof and observers. The Gaussian log-likelihood per vote falls by ln |k|, AIC and BIC rise by twice that.", "quantifier": "All readers with finite votes, all k and t, all options without z-scores, differential scores or final transforms; bias removal allowed; any function in the place of the chi-square quantile.", "why_tests_cant": "A statement about pairs of runs of an iteration with a data-dependent number of passes, on all datasets and all real scales.", "anchors": ["sureal/subjective_model.py:MaximumLikelihoodEstimationModel", "sureal/subjective_model.py:MaximumLikelihoodEstimationModelContentOblivious", "sureal/subjective_model.py:MaximumLikelihoodEstimationModelSubjectOblivious"]}
{"id": "C142", "title": "z-scored Thurstone output is the plain output on a standardised scale", "statement": "ThurstoneMlePairedCompSubjectiveModel with zscore_output=True raises exactly the errors of the run without it. If two of the plain scores differ, there are mu and d > 0 such that the new scores are (x - mu) / d with mean 0 and population variance 1, every standard deviation is divided by d, and y lies in a video's 95% interval exactly if (y - mu) / d lies in the new one. If all plain scores are equal, every new score is NaN and every positive deviation becomes infinite, without an error.", "quantifier": "All vote arrays, both forms of the model, any functions in the place of the normal CDF, the SLSQP optimizer and the pseudo-inverse.", "why_tests_cant": "Ranges over all vote arrays and over every answer the optimizer and the pseudo-inverse may give.", "anchors": ["sureal/pc_subjective_model.py:ThurstoneMlePairedCompSubjectiveModel"]}
{"id": "C143", "title": "z-scored Newton-Raphson Bradley-Terry scores are the plain scores standardised", "statement": "BradleyTerryNewtonRaphsonPairedCompSubjectiveModel with zscore_output=True raises exactly the errors of the run without it. A plain run that ends has only finite scores, the last one 0. If two of them differ, there are mu and d > 0 such that the new scores are (x - mu) / d with mean 0 and population variance 1, in the same order, the last one -mu / d. If all are equal, as with a single video, every new score is NaN, without an error.", "quantifier": "All matrices of votes, infinite and missing counts included, any function in the place of the pseudo-inverse, any number of passes.", "why_tests_cant": "Ranges over all vote matrices and over every answer the pseudo-inverse may give in any pass.", "anchors": ["sureal/pc_subjective_model.py:BradleyTerryNewtonRaphsonPairedCompSubjectiveModel"]}
