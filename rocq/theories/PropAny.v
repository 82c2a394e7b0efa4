(** Theorem for claim C127: what holds whatever the arithmetic, so for the
    binary64 numbers of the machine as well as for exact ones. *)
From Coq Require Import String.
From Coq Require Import List ZArith Bool Arith Lia.
From Flocq Require Import Core IEEE754.BinarySingleNaN.
From Verif Require Import PyBase Num NumPy Dataset Preproc Mos AP NumB64 SpecAny SpecB64 AnyProofs B64Witness AnyWitness.
Import ListNotations.

(** C127: the results of a video depend on its own votes only, wherever it
    stands in the dataset. *)
Theorem C127_local : forall (T : Type) (N : Num T) (rd rd' : reader T) a a' m m' e e',
  rd_arr rd = Ok a -> rd_arr rd' = Ok a' -> same_votes a e a' e' ->
  run_modeling MOS rd plain = Ok m -> run_modeling MOS rd' plain = Ok m' ->
  nth_error (mr_quality m) e = nth_error (mr_quality m') e' /\ nth_error (mr_ambiguity m) e = nth_error (mr_ambiguity m') e' /\
  nth_error (mr_std m) e = nth_error (mr_std m') e' /\ nth_error (mr_ci_lo m) e = nth_error (mr_ci_lo m') e' /\
  nth_error (mr_ci_hi m) e = nth_error (mr_ci_hi m') e' /\ nth_error (mr_quality m) e <> None.
Proof. exact @any_local. Qed.
Print Assumptions C127_local.

(** ... every class, with any options, has one entry per video. *)
Theorem C127_lengths : forall (T : Type) (N : Num T) c (rd : reader T) k a m, rd_arr rd = Ok a -> run_modeling c rd k = Ok m ->
  length (mr_quality m) = dE a /\ length (mr_std m) = dE a /\ length (mr_ci_lo m) = dE a /\ length (mr_ci_hi m) = dE a /\
  length (mr_ambiguity m) = dE a /\
  dE (mr_raw m) = dE a /\ dR (mr_raw m) = dR a /\
  dE (mr_recon m) = dE a /\ dS (mr_recon m) = dS (mr_raw m) /\ dR (mr_recon m) = dR a.
Proof. exact @any_lengths. Qed.
Print Assumptions C127_lengths.

(** ... the projection solver comes to an end after at most 1000 passes, or with
    one of two exceptions. *)
Theorem C127_projection : forall (T : Type) (N : Num T) (chi : T -> T -> T) c (rd : reader T) k f pp, preprocess rd k = Ok pp ->
  (exists m, ap_run_modeling chi c rd k f = Ok m /\ 1 <= ap_iter m <= 1000) \/
  ap_run_modeling chi c rd k f = Err ValueError \/ ap_run_modeling chi c rd k f = Err KeyError.
Proof. exact @any_errors. Qed.
Print Assumptions C127_projection.

(** ... and has one entry per video or per accepted subject. *)
Theorem C127_projection_lengths : forall (T : Type) (N : Num T) (chi : T -> T -> T) c (rd : reader T) k f a m,
  rd_arr rd = Ok a -> ap_run_modeling chi c rd k f = Ok m ->
  let E := dE a in let I := dS (ap_raw m) in
  dE (ap_raw m) = E /\ dR (ap_raw m) = dR a /\ (kw_rej k = false -> I = dS a) /\
  length (ap_quality m) = E /\ length (ap_quality_std m) = E /\ length (ap_quality_lo m) = E /\ length (ap_quality_hi m) = E /\
  length (ap_bias m) = I /\ length (ap_bias_std m) = I /\ length (ap_bias_lo m) = I /\ length (ap_bias_hi m) = I /\
  length (ap_incons m) = I /\ length (ap_incons_std m) = I /\ length (ap_incons_lo m) = I /\ length (ap_incons_hi m) = I /\
  length (ap_scores_mean m) = I /\ length (ap_scores_std m) = I.
Proof. exact @any_ap_lengths. Qed.
Print Assumptions C127_projection_lengths.

(** The votes 5, missing, 4 come second in one dataset and first in another;
    binary64 gives them the same score.  The projection solver ends on the
    second one, with three scores for three videos. *)
Example C127_nonvacuous : forall bexp bln,
  let NB := Num_b64 bexp bln in
  exists m m' p,
    same_votes (wb_arr bexp bln wa_one) 1 (wb_arr bexp bln wa_two) 0 /\
    rd_arr (wb_reader bexp bln wa_one) = Ok (wb_arr bexp bln wa_one) /\ rd_arr (wb_reader bexp bln wa_two) = Ok (wb_arr bexp bln wa_two) /\
    run_modeling MOS (wb_reader bexp bln wa_one) plain = Ok m /\ run_modeling MOS (wb_reader bexp bln wa_two) plain = Ok m' /\
    ap_run_modeling (fun _ x => x) MLE_CO_AP (wb_reader bexp bln wa_one) plain None = Ok p /\ ap_iter p = 19 /\
    dE (wb_arr bexp bln wa_one) = 3 /\ dS (wb_arr bexp bln wa_one) = 3.
Proof. exact wa_runs. Qed.
