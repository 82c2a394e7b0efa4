(** Theorems for claim C141: the likelihood models on another rating scale. *)
From Coq Require Import String.
From Coq Require Import List ZArith Bool Arith Reals Lra Lia.
From Verif Require Import PyBase Num ExtReal NumPy Dataset Preproc Mos AP Mle SpecMos SpecAp SpecMle MosProofs MosWitness MleWitness Mle2Witness
  SpecScale ScaleProofs Scale2Proofs Scale3Proofs Scale4Proofs ScaleWitness.
Import ListNotations.
Local Open Scope R_scope.

(** C141 for the gradients of the sources in closed form, votes times k. *)
Theorem C141_factor : forall chi c k (rd rd' : reader ef) a a' kw o o' m, c = MLE \/ c = MLE_CO \/ c = MLE_SO -> k <> 0 ->
  rd_arr rd = Ok a -> rd_arr rd' = Ok a' -> finite_votes a -> transformed (rescale k 0) a a' -> same_test rd rd' -> plain_votes kw -> same_options k o o' ->
  gradient_of o = Simplified \/ gradient_of o = Original -> mle_run_modeling chi c rd kw o = Ok m ->
  exists m', mle_run_modeling chi c rd' kw o' = Ok m' /\ on_scale k 0 m m'.
Proof. exact scale_factor. Qed.
Print Assumptions C141_factor.

(** C141 with the original gradient, votes k * x + t. *)
Theorem C141_original : forall chi c k t (rd rd' : reader ef) a a' kw o o' m, c = MLE \/ c = MLE_CO \/ c = MLE_SO -> k <> 0 ->
  rd_arr rd = Ok a -> rd_arr rd' = Ok a' -> finite_votes a -> transformed (rescale k t) a a' -> same_test rd rd' -> plain_votes kw -> same_options k o o' ->
  gradient_of o = Original -> mle_run_modeling chi c rd kw o = Ok m ->
  exists m', mle_run_modeling chi c rd' kw o' = Ok m' /\ on_scale k t m m'.
Proof. exact scale_original. Qed.
Print Assumptions C141_original.

(** C141 with the default gradient, votes k * x + t: no pass of the run may meet
    a vote of variance 0. *)
Theorem C141_simplified_partial : forall chi c k t (rd rd' : reader ef) a a' kw o o' m, c = MLE \/ c = MLE_CO \/ c = MLE_SO -> k <> 0 ->
  rd_arr rd = Ok a -> rd_arr rd' = Ok a' -> finite_votes a -> transformed (rescale k t) a a' -> same_test rd rd' -> plain_votes kw -> same_options k o o' ->
  gradient_of o = Simplified -> mle_run_modeling chi c rd kw o = Ok m -> stays_regular c rd kw o (ml_iter m) ->
  exists m', mle_run_modeling chi c rd' kw o' = Ok m' /\ on_scale k t m m'.
Proof. exact scale_simplified. Qed.
Print Assumptions C141_simplified_partial.

(** C141 with numerical differences: votes x + t and the Gaussian density. *)
Theorem C141_numerical_partial : forall chi c t (rd rd' : reader ef) a a' kw o o' m, c = MLE \/ c = MLE_CO \/ c = MLE_SO ->
  rd_arr rd = Ok a -> rd_arr rd' = Ok a' -> finite_votes a -> transformed (rescale 1 t) a a' -> same_test rd rd' -> plain_votes kw -> same_options 1 o o' ->
  gradient_of o = Numerical -> pdf_of o = GaussianPdf -> mle_run_modeling chi c rd kw o = Ok m ->
  exists m', mle_run_modeling chi c rd' kw o' = Ok m' /\ on_scale 1 t m m' /\ same_fit m m'.
Proof. exact scale_numerical. Qed.
Print Assumptions C141_numerical_partial.

(** C141: the log-likelihood of two runs whose results agree up to the scale. *)
Theorem C141_fit : forall chi c k t (rd rd' : reader ef) a a' kw o o' m m', c = MLE \/ c = MLE_CO \/ c = MLE_SO -> k <> 0 ->
  rd_arr rd = Ok a -> rd_arr rd' = Ok a' -> finite_votes a -> transformed (rescale k t) a a' -> same_test rd rd' -> plain_votes kw -> same_options k o o' ->
  pdf_of o = GaussianPdf -> mle_run_modeling chi c rd kw o = Ok m -> mle_run_modeling chi c rd' kw o' = Ok m' -> on_scale k t m m' ->
  proper_fit c rd kw m -> fit_on_scale k m m'.
Proof. exact scale_fit. Qed.
Print Assumptions C141_fit.

(** Without the condition on the variances the default gradient breaks C141: a
    run succeeds, and with 3 added to every vote it raises. *)
Theorem C141_refuted : exists c rd rd' a a' kw o, rd_arr rd = Ok a /\ rd_arr rd' = Ok a' /\ finite_votes a /\ transformed (rescale 1 3) a a' /\
  same_test rd rd' /\ plain_votes kw /\ same_options 1 o o /\ gradient_of o = Simplified /\ forall chi,
  (exists m, mle_run_modeling chi c rd kw o = Ok m) /\ mle_run_modeling chi c rd' kw o = Err ValueError.
Proof. exact scale_refuted. Qed.
Print Assumptions C141_refuted.

(** Two videos and two subjects: votes 4, 2 / 1, 3 against 9, 5 / 3, 7 (2 * x + 1)
    and 8, 4 / 2, 6 (2 * x). *)
Example C141_nonvacuous : forall chi, exists m,
  mle_run_modeling chi MLE_CO (w_reader wf_ds) no_options (MleOpts None None None None) = Ok m /\
  rd_arr (w_reader wf_ds) = Ok (w_arr wf_ds) /\ rd_arr (w_reader wf2_ds) = Ok (w_arr wf2_ds) /\ rd_arr (w_reader wf3_ds) = Ok (w_arr wf3_ds) /\ finite_votes (w_arr wf_ds) /\
  transformed (rescale 2 1) (w_arr wf_ds) (w_arr wf2_ds) /\ transformed (rescale 2 0) (w_arr wf_ds) (w_arr wf3_ds) /\
  same_test (w_reader wf_ds) (w_reader wf2_ds) /\ same_test (w_reader wf_ds) (w_reader wf3_ds) /\ plain_votes no_options /\
  same_options 2 (MleOpts None None None None) wf2_o /\
  stays_regular MLE_CO (w_reader wf_ds) no_options (MleOpts None None None None) (ml_iter m).
Proof.
  intro chi. destruct (wf_run chi None) as (m & H & _). exists m. split; [exact H|]. do 10 (split; [first [reflexivity|exact wf_finite|exact wf2_tr|exact wf3_tr|exact wf2_opts|repeat split]|]).
  apply wf_stays.
Qed.
(** What follows for the votes 2 * x + 1. *)
Example C141_doubled : forall chi, exists m m', mle_run_modeling chi MLE_CO (w_reader wf_ds) no_options (MleOpts None None None None) = Ok m /\
  mle_run_modeling chi MLE_CO (w_reader wf2_ds) no_options wf2_o = Ok m' /\ on_scale 2 1 m m'.
Proof. exact doubled. Qed.
