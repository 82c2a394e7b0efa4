(** Theorems for claim C134: where the figures are drawn. *)
From Coq Require Import String.
From Coq Require Import List Bool Arith Reals.
From Verif Require Import PyBase Num ExtReal NumPy Dataset Figures SpecFigures SpecPlaces FiguresWitness PlacesProofs.
Import ListNotations.
Local Open Scope list_scope.

(** C134: every drawing but the counts per subject is on its own axes if they are
    given, else in a new figure of the size of its data; the axes of the biases and
    of the inconsistencies have to come together. *)
Theorem C134_placed_partial : forall argsort numbered d0 axes pt sort a refs rs d, In d (fst (draw_all argsort numbered d0 axes pt sort a refs rs)) ->
  (In "ax_observer_bias"%string axes <-> In "ax_observer_inconsistency"%string axes) ->
  (forall p pts k, d <> DCounts "raw_counts_per_subject" p pts k) -> well_placed axes rs d.
Proof. exact c134_placed. Qed.
Print Assumptions C134_placed_partial.
(** C134: the axes of the counts per subject have a key without prefix. *)
Theorem C134_per_subject : forall axes a ds d, fig_raw_counts_per_subject axes a = Ok ds -> In d ds ->
  exists p pts k, d = DCounts "raw_counts_per_subject" p pts k /\ on_own_axes axes "raw_counts_per_subject" p (plot_inches k 3).
Proof. exact c134_per_subject. Qed.
Print Assumptions C134_per_subject.
(** C134: with at most one result no axes are drawn on twice. *)
Theorem C134_once_partial : forall argsort numbered d0 axes pt sort a refs rs, length rs <= 1 ->
  NoDup (axes_used (fst (draw_all argsort numbered d0 axes pt sort a refs rs))).
Proof. exact c134_shared. Qed.
Print Assumptions C134_once_partial.
(** C134 fails: the axes ax_raw_counts_per_subject are not used, nor those of the
    biases alone; the images of two results are on the same axes. *)
Theorem C134_prefix_refuted : forall argsort numbered, exists w h pts,
  draw_all argsort numbered (PList ["raw_counts_per_subject"%string]) ["ax_raw_counts_per_subject"%string] PError false g_votes [] [] =
  ([DCounts "raw_counts_per_subject" (NewFigure w h) pts 3], Ok tt).
Proof. exact g_prefix. Qed.
Print Assumptions C134_prefix_refuted.
Theorem C134_half_refuted : forall argsort numbered, exists w h l rest,
  draw_all argsort numbered (PList ["subject_scores"%string]) ["ax_observer_bias"%string] PError false g_votes [] [g_res "MOS"] =
  (DSeries "observer_bias" (NewFigure w h) l :: rest, Ok tt).
Proof. exact g_half. Qed.
Print Assumptions C134_half_refuted.
Theorem C134_once_refuted : forall argsort numbered, exists m m',
  draw_all argsort numbered (PList ["raw_scores_minus_quality_scores"%string]) ["ax_raw_scores_minus_quality_scores"%string] PError false g_votes [] [g_res "MOS"; g_res "MLE"] =
  ([DImage "raw_scores_minus_quality_scores" (Some "MOS"%string) (OnAxes "ax_raw_scores_minus_quality_scores") m;
    DImage "raw_scores_minus_quality_scores" (Some "MLE"%string) (OnAxes "ax_raw_scores_minus_quality_scores") m'], Ok tt).
Proof. exact g_over. Qed.
Print Assumptions C134_once_refuted.
Example C134_nonvacuous : forall argsort numbered, exists m,
  draw_all argsort numbered (PList ["raw_scores"%string]) ["ax_raw_scores"%string] PError false g_votes [] [g_res "MOS"] =
  ([DImage "raw_scores" None (OnAxes "ax_raw_scores") m], Ok tt).
Proof. exact g_on_axes. Qed.
