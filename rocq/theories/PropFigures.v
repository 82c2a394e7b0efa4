(** Claims C96-C101: what the figures show. *)
From Coq Require Import String.
From Coq Require Import List ZArith Bool Arith Reals Lra Lia Sorted Permutation.
From Verif Require Import PyBase Num ExtReal NumPy Dataset PcDataset Stats Figures SpecDataset SpecMos SpecStats SpecPc SpecBt SpecFigures
  Figures2Proofs Figures3Proofs Figures4Proofs FiguresWitness PcWitness.
Import ListNotations.
Local Open Scope list_scope.

(** C96: the image of the votes. *)
Theorem C96_raw_scores : forall axes a, finite_votes a -> exists p m, fig_raw_scores axes a = Ok [DImage "raw_scores" None p m] /\ shows_means a m.
Proof. exact c96_raw_scores. Qed.
Print Assumptions C96_raw_scores.
(** C96: how often each value occurs, by video and by subject. *)
Theorem C96_counts : forall axes a, finite_votes a ->
  (exists p pts, fig_raw_counts axes a = Ok [DCounts "raw_counts" p pts (dE a)] /\ counts_shown (dE a) (dS a) (fun j i => rep_votes a j i) pts) \/
  (fig_raw_counts axes a = Err ValueError /\ forall j i, (j < dE a)%nat -> (i < dS a)%nat -> rep_votes a j i = []).
Proof. exact c96_raw_counts. Qed.
Print Assumptions C96_counts.
Theorem C96_counts_per_subject : forall axes a, finite_votes a ->
  (exists p pts, fig_raw_counts_per_subject axes a = Ok [DCounts "raw_counts_per_subject" p pts (dS a)] /\ counts_shown (dS a) (dE a) (fun i j => rep_votes a j i) pts) \/
  (fig_raw_counts_per_subject axes a = Err ValueError /\ forall j i, (j < dE a)%nat -> (i < dS a)%nat -> rep_votes a j i = []).
Proof. exact c96_raw_counts_subject. Qed.
Print Assumptions C96_counts_per_subject.
(** C96: an image of the residuals for every result with scores, and for every one with scores and biases. *)
Theorem C96_minus_scores : forall axes a rs, finite_votes a -> scores_ok a rs ->
  exists ds, fig_minus_quality axes a rs = Ok ds /\ Forall2 (rest_image a) (filter (fun r => given (sh_quality r)) rs) ds.
Proof. exact c96_minus_quality. Qed.
Print Assumptions C96_minus_scores.
Theorem C96_minus_scores_and_biases : forall axes a rs, finite_votes a -> scores_ok a rs -> biases_ok a rs ->
  exists ds, fig_minus_both axes a rs = Ok ds /\ Forall2 (rest2_image a) (filter (fun r => given (sh_quality r) && given (sh_bias r)) rs) ds.
Proof. exact c96_minus_both. Qed.
Print Assumptions C96_minus_scores_and_biases.
(** C96: a panel for every subject with its votes against the scores. *)
Theorem C96_versus : forall a rs, finite_votes a -> scores_ok a rs -> (1 < dS a)%nat -> (exists i j, (i < dS a)%nat /\ (j < dE a)%nat /\ rep_votes a j i <> []) ->
  exists ds, fig_quality_vs_raw a rs = Ok ds /\ Forall2 (versus a) (filter (fun r => given (sh_quality r)) rs) ds.
Proof. exact c96_versus. Qed.
Print Assumptions C96_versus.
Example C96_nonvacuous : finite_votes g_votes /\ scores_ok g_votes (map g_res ["MOS"; "BR"]%string) /\ biases_ok g_votes (map g_res ["MOS"; "BR"]%string) /\ (1 < dS g_votes)%nat /\
  rep_votes g_votes 0 0 = [5%R] /\ rep_votes g_votes 1 2 = [].
Proof. split; [exact g_finite|]. split; [exact (g_scores _)|]. split; [exact (g_biases _)|]. split; [cbn; lia|]. split; reflexivity. Qed.

(** C97: the figures asked for, in their order, up to the first one that fails. *)
Theorem C97_drawn : forall argsort numbered d axes pt sort a refs rs, exists names,
  sublist names plot_names /\ (forall n, In n names <-> In n plot_names /\ asked d n) /\
  drawn (figure argsort numbered axes pt sort a refs rs) names (draw_all argsort numbered d axes pt sort a refs rs).
Proof. exact c97_drawn. Qed.
Print Assumptions C97_drawn.
Theorem C97_all : forall argsort numbered axes pt sort a refs rs,
  drawn (figure argsort numbered axes pt sort a refs rs) plot_names (draw_all argsort numbered (PText "all") axes pt sort a refs rs).
Proof. exact c97_all. Qed.
Print Assumptions C97_all.
Theorem C97_none : forall argsort numbered axes pt sort a refs rs, draw_all (T := ef) argsort numbered PNone axes pt sort a refs rs = ([], Ok tt).
Proof. exact c97_none. Qed.
Print Assumptions C97_none.
(** C97: the name of one figure can draw another one, and a list with "all" draws nothing. *)
Theorem C97_text_refuted : forall argsort numbered, exists p pts p' pts',
  draw_all argsort numbered (PText "raw_counts_per_subject") [] PError false g_votes [] [] =
  ([DCounts "raw_counts" p pts 2; DCounts "raw_counts_per_subject" p' pts' 3], Ok tt).
Proof. exact g_text. Qed.
Print Assumptions C97_text_refuted.
Theorem C97_list_refuted : forall argsort numbered axes pt sort a refs rs, draw_all (T := ef) argsort numbered (PList ["all"%string]) axes pt sort a refs rs = ([], Ok tt).
Proof. exact g_list_all. Qed.
Print Assumptions C97_list_refuted.
Example C97_nonvacuous : asked (PList ["quality_scores"; "raw_scores"]%string) "raw_scores" /\ ~ asked (PList ["quality_scores"]%string) "raw_scores".
Proof. split; [right; left; reflexivity|]. intros [H|[]]. discriminate. Qed.

(** C98: the size of an image keeps the proportions of the matrix and is bounded. *)
Theorem C98_image : forall rows cols, exists c, imshow_size rows cols = (Fin (c * INR cols + 2), Fin (c * INR rows + 2)) /\
  (0 < c <= 1 / 30)%R /\ (c * INR cols < 200)%R /\ (c * INR rows < 200)%R /\ ((cols <= 3000)%nat -> (rows <= 3000)%nat -> c = (1 / 30)%R).
Proof. exact c98_image. Qed.
Print Assumptions C98_image.
Theorem C98_refuted : exists rows cols w h, imshow_size rows cols = (Fin w, Fin h) /\ (102 < w)%R.
Proof. exists 30%nat, 4500%nat, 152%R, 3%R. split; [exact c98_wide|lra]. Qed.
Print Assumptions C98_refuted.
Theorem C98_plot : forall n, exists w, plot_size (Some n) = (Fin w, Fin 3) /\ (10 <= w)%R /\ (sqrt (INR n) + 2 <= w)%R /\ (w = 10 \/ w = sqrt (INR n) + 2)%R.
Proof. exact c98_plot. Qed.
Print Assumptions C98_plot.
Theorem C98_grid : forall n, (0 < n)%nat -> (n <= grid_rows n * grid_cols n /\ grid_rows n * (grid_cols n - 1) < n)%nat.
Proof. exact c98_grid. Qed.
Print Assumptions C98_grid.
Example C98_nonvacuous : (grid_rows 7 = 2 /\ grid_cols 7 = 4)%nat.
Proof. split; reflexivity. Qed.

(** C99: the winning rates of a table of comparisons. *)
Theorem C99_rate : forall a i j, two_sided a -> (i < dE a)%nat -> (j < dE a)%nat -> i <> j ->
  exists c, number (compared a i j) (seq 0 (dR a)) c /\
    ((c = 0%nat /\ at2 (winning_rate a) i j = NaN) \/
     ((0 < c)%nat /\ exists x, at2 (winning_rate a) i j = Fin x /\ (x = preferences a i j / INR c)%R /\ (0 <= x <= 1)%R /\ at2 (winning_rate a) j i = Fin (1 - x))).
Proof. exact c99_rate. Qed.
Print Assumptions C99_rate.
Theorem C99_reader : forall (ds : dataset ef (string * Z)) a i j, pc_reader_3darray ds = Ok a -> (i < length (ds_dis ds))%nat -> (j < length (ds_dis ds))%nat -> i <> j ->
  exists c, number (compared a i j) (seq 0 (dR a)) c /\
    ((c = 0%nat /\ at2 (winning_rate a) i j = NaN) \/
     ((0 < c)%nat /\ exists x, at2 (winning_rate a) i j = Fin x /\ (x = preferences a i j / INR c)%R /\ (0 <= x <= 1)%R /\ at2 (winning_rate a) j i = Fin (1 - x))).
Proof. exact c99_reader. Qed.
Print Assumptions C99_reader.
Example C99_nonvacuous : two_sided g_pairs /\ number (compared g_pairs 0 1) (seq 0 (dR g_pairs)) 2.
Proof. split; [exact g_pairs_ok|]. repeat (apply number_yes; [discriminate|]). constructor. Qed.
Example C99_reader_nonvacuous : exists a, pc_reader_3darray y_straight = Ok a.
Proof. destruct y_straight_run as (a & E & _). exists a. exact E. Qed.

(** C100: every result with scores is drawn once, with its scores in one order for all. *)
Theorem C100_result : forall argsort axes pt sort rs r0 rest n q, sorts argsort -> pt <> POther -> rs = r0 :: rest -> sh_quality r0 = Some (map Fin q) -> length q = n -> (0 < n)%nat -> n_scores n rs ->
  (length (filter (fun r => given (sh_quality r)) rs) <= 8)%nat ->
  exists order p l, fig_quality argsort axes pt sort rs = Ok [DSeries "quality_scores" p l] /\
    Permutation order (seq 0 n) /\ (sort = false -> order = seq 0 n) /\ (sort = true -> ascending (map (fun k => nth k q 0%R) order)) /\
    Forall2 (quality_shown pt order) (numbered_from 0 (filter (fun r => given (sh_quality r)) rs)) l.
Proof. exact c100_result. Qed.
Print Assumptions C100_result.
Example C100_nonvacuous : sorts order0 /\ n_scores 2 (map g_res ["MOS"; "BR"]%string).
Proof. split; [exact order0_sorts|exact (g_n _)]. Qed.
(** C100: what is refused. *)
Theorem C100_many : forall argsort axes pt sort rs r0 rest n q, sorts argsort -> pt <> POther -> rs = r0 :: rest -> sh_quality r0 = Some (map Fin q) -> length q = n -> (0 < n)%nat -> n_scores n rs ->
  (8 < length (filter (fun r => given (sh_quality r)) rs))%nat -> fig_quality argsort axes pt sort rs = Err IndexError.
Proof. exact c100_many. Qed.
Print Assumptions C100_many.
Theorem C100_first : forall argsort axes pt sort r0 rest, sh_quality r0 = None -> fig_quality (T := ef) argsort axes pt sort (r0 :: rest) = Err KeyError.
Proof. exact c100_first. Qed.
Print Assumptions C100_first.
Theorem C100_nothing : forall argsort axes pt sort, fig_quality (T := ef) argsort axes pt sort [] = Err IndexError.
Proof. exact c100_nothing. Qed.
Print Assumptions C100_nothing.
Theorem C100_type : forall argsort axes sort r0 rest q, sorts argsort -> sh_quality r0 = Some (map Fin q) -> fig_quality argsort axes POther sort (r0 :: rest) = Err AssertionError.
Proof. exact c100_type. Qed.
Print Assumptions C100_type.
(** C100: without sorting, each score has its own margins; with sorting, the margins stay behind. *)
Theorem C100_margins : forall s n r x, quality_shown PError (seq 0 n) (s, r) x -> own_margins r (seq 0 n) x.
Proof. exact c100_margins. Qed.
Print Assumptions C100_margins.
Theorem C100_margins_refuted : forall argsort, sorts argsort -> exists order p x,
  fig_quality argsort [] PError true [g_res "MOS"] = Ok [DSeries "quality_scores" p [x]] /\
  quality_shown PError order (0%nat, g_res "MOS") x /\ ~ own_margins (g_res "MOS") order x.
Proof. exact g_margins. Qed.
Print Assumptions C100_margins_refuted.
(** C100: the bars of two models do not overlap, those of three do. *)
Theorem C100_bars : forall s s' k k', (s < 2)%nat -> (s' < 2)%nat -> (s, k) <> (s', k') -> ~ overlap (bar_place s k) (bar_place s' k').
Proof. exact c100_overlap. Qed.
Print Assumptions C100_bars.
Theorem C100_bars_refuted : exists s s' k k', (s < 3)%nat /\ (s' < 3)%nat /\ k <> k' /\ overlap (bar_place s k) (bar_place s' k').
Proof. exists 2%nat, 0%nat, 0%nat, 1%nat. split; [lia|]. split; [lia|]. split; [discriminate|exact c100_overlap_three]. Qed.
Print Assumptions C100_bars_refuted.

(** C101: every subject's estimates above its name. *)
Theorem C101_subjects : forall numbered axes pt n rs, pt <> POther -> (0 < n)%nat -> (length (filter counted rs) <= 8)%nat -> subjects_ok n rs ->
  exists p1 p2 l1 l2 d3 d4 d5 names,
    fig_subjects numbered axes pt rs = Ok ([DSeries "observer_bias" p1 l1; DSeries "observer_inconsistency" p2 l2] ++ d3 ++ d4 ++ d5 ++ names) /\
    entries pt sh_bias sh_bias_ci n 0 rs l1 /\ entries pt sh_incons sh_incons_ci n 0 rs l2 /\
    chart axes "ax_rejected" rejected_of n rs d3 /\ chart axes "ax_rejected_1st_stats" sh_rejected1 n rs d4 /\ chart axes "ax_rejected_2nd_stats" sh_rejected2 n rs d5 /\
    names_below numbered axes n rs names.
Proof. exact c101_subjects. Qed.
Print Assumptions C101_subjects.
Example C101_nonvacuous : subjects_ok 3 (map g_res ["MOS"; "BR"]%string) /\ last_names (map g_res ["MOS"; "BR"]%string) ["ann"; "bob"; "cyd"]%string.
Proof.
  split; [exact (g_subjects _)|]. exists [g_res "MOS"], (g_res "BR"), []. split; [reflexivity|]. split; [split; reflexivity|]. intros r o [].
Qed.
Theorem C101_mismatch : forall numbered axes pt r rs ys o, pt <> POther -> sh_bias r = Some (map Fin ys) -> ys <> [] -> sh_observers r = Some o -> length o <> length ys ->
  fig_subjects numbered axes pt (r :: rs) = Err AssertionError.
Proof. exact c101_mismatch. Qed.
Print Assumptions C101_mismatch.
(** C101: every content's ambiguity above its name. *)
Theorem C101_contents : forall axes pt n refs rs, pt <> POther -> (0 < n)%nat -> (forall r, In r rs -> of_length n (sh_ambiguity r)) ->
  (0 < length (filter (fun r => given (sh_ambiguity r)) rs) <= 8)%nat -> (forall r, In r refs -> (exists k, points_to n r k) /\ exists name, content_name r name) ->
  exists p l t, fig_contents axes pt refs rs = Ok [DSeries "content_ambiguity" p l; DTicks "content_ambiguity" t] /\
    Forall2 (entry_shown pt sh_ambiguity sh_ambiguity_ci n) (numbered_from 0 (filter (fun r => given (sh_ambiguity r)) rs)) l /\
    length t = n /\ forall k, (k < n)%nat -> named n refs k (nth k t ""%string).
Proof. exact c101_contents. Qed.
Print Assumptions C101_contents.
Theorem C101_contents_error : forall axes pt n refs1 r refs2 rs, pt <> POther -> (0 < n)%nat -> (forall r, In r rs -> of_length n (sh_ambiguity r)) ->
  (0 < length (filter (fun r => given (sh_ambiguity r)) rs) <= 8)%nat -> (forall r, In r refs1 -> (exists k, points_to n r k) /\ exists name, content_name r name) ->
  ((forall name, ~ content_name r name) -> fig_contents axes pt (refs1 ++ r :: refs2) rs = Err KeyError) /\
  ((exists name, content_name r name) -> (forall k, ~ points_to n r k) -> fig_contents axes pt (refs1 ++ r :: refs2) rs = Err IndexError).
Proof. exact c101_contents_error. Qed.
Print Assumptions C101_contents_error.
Example C101_contents_nonvacuous : (forall r, In r (map g_res ["CO"]%string) -> of_length 2 (sh_ambiguity r)) /\ (forall r, In r g_refs -> (exists k, points_to 2 r k) /\ exists name, content_name r name).
Proof. split; [exact (g_ambiguity _)|exact g_refs_ok]. Qed.
