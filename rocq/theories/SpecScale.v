(** Specification for claim C141: votes and results of the likelihood models on another rating scale. *)
From Coq Require Import String.
From Coq Require Import List ZArith Bool Arith Reals.
From Verif Require Import PyBase Num ExtReal NumPy Dataset Preproc Mos AP Mle SpecMos SpecAp SpecMle.
Import ListNotations.
Local Open Scope R_scope.

(** k times a number, and the place of a number on the scale [k * x + t]. *)
Definition times (k : R) (x : ef) : ef := ef_mul (Fin k) x.
Definition rescale (k t : R) (x : ef) : ef := ef_add (times k x) (Fin t).

(** Two readers of the same test: references, contents of the videos and
    observers agree; only the votes may differ. *)
Definition same_test (rd rd' : reader ef) : Prop :=
  ds_refs (rd_ds rd') = ds_refs (rd_ds rd) /\
  content_id_of_dis_videos (rd_dvs rd') = content_id_of_dis_videos (rd_dvs rd) /\
  get_list_observers (rd_dvs rd') = get_list_observers (rd_dvs rd).

(** Options for the other scale: the threshold of the stop test is a distance
    between quality scores. *)
Definition same_options (k : R) (o o' : mleopts ef) : Prop :=
  mo_gradient o' = mo_gradient o /\ pdf_of o' = pdf_of o /\ mo_force o' = mo_force o /\
  threshold_of o' = times (Rabs k) (threshold_of o).

(** The votes are used as they are or with the subjects' biases removed, and
    the quality scores are reported as they are. *)
Definition plain_votes (k : kwargs ef) : Prop :=
  kw_dscore k = false /\ kw_zscore k = false /\ kw_normalize_final k = false /\ kw_transform_final k = None.

(** The second result is the first one on the scale [k * x + t]. *)
Record on_scale (k t : R) (m m' : mleres ef) : Prop := OnScale {
  on_raw : transformed (rescale k t) (ml_raw m) (ml_raw m');
  on_quality : ml_quality m' = map (rescale k t) (ml_quality m);
  on_quality_std : ml_quality_std m' = map (times (Rabs k)) (ml_quality_std m);
  on_quality_lo : ml_quality_lo m' = map (times (Rabs k)) (ml_quality_lo m);
  on_quality_hi : ml_quality_hi m' = map (times (Rabs k)) (ml_quality_hi m);
  on_iter : ml_iter m' = ml_iter m;
  on_bias : ml_bias m' = option_map (map (times k)) (ml_bias m);
  on_bias_std : ml_bias_std m' = option_map (map (times (Rabs k))) (ml_bias_std m);
  on_bias_lo : ml_bias_lo m' = option_map (map (times (Rabs k))) (ml_bias_lo m);
  on_bias_hi : ml_bias_hi m' = option_map (map (times (Rabs k))) (ml_bias_hi m);
  on_incons : ml_incons m' = option_map (map (times (Rabs k))) (ml_incons m);
  on_incons_std : ml_incons_std m' = option_map (map (times (Rabs k))) (ml_incons_std m);
  on_incons_lo : ml_incons_lo m' = option_map (map (times (Rabs k))) (ml_incons_lo m);
  on_incons_hi : ml_incons_hi m' = option_map (map (times (Rabs k))) (ml_incons_hi m);
  on_ambiguity : ml_ambiguity m' = option_map (map (times (Rabs k))) (ml_ambiguity m);
  on_ambiguity_std : ml_ambiguity_std m' = option_map (map (times (Rabs k))) (ml_ambiguity_std m);
  on_ambiguity_lo : ml_ambiguity_lo m' = option_map (map (times (Rabs k))) (ml_ambiguity_lo m);
  on_ambiguity_hi : ml_ambiguity_hi m' = option_map (map (times (Rabs k))) (ml_ambiguity_hi m);
  on_recon : transformed (rescale k t) (ml_recon m) (ml_recon m');
  on_dof : ml_dof m' = ml_dof m;
  on_observers : ml_observers m' = ml_observers m }.

(** Same log-likelihood and information criteria. *)
Definition same_fit (m m' : mleres ef) : Prop := ml_ll m' = ml_ll m /\ ml_aic m' = ml_aic m /\ ml_bic m' = ml_bic m.

(** No pass of the run meets a vote of variance 0 or a value that is not
    finite. *)
Definition stays_regular (c : mleclass) (rd : reader ef) (k : kwargs ef) (o : mleopts ef) (n : nat) : Prop :=
  forall x cids C s, begins c rd k x cids C s -> finite_votes x /\
    forall j s', (j <= n)%nat -> passes (mode_of c) (gradient_of o) (pdf_of o) x cids C j s = Ok s' -> regular_state x cids C s'.

(** The reported parameters give every vote a finite mean and a positive
    variance, and there is a vote. *)
Definition proper_fit (c : mleclass) (rd : reader ef) (k : kwargs ef) (m : mleres ef) : Prop :=
  forall x cids C s, begins c rd k x cids C s -> finite_votes x /\ 0 < total_votes x /\
    exists p, holds x cids C p (ml_quality m) (or_zeros (dS x) (ml_bias m)) (or_zeros (dS x) (ml_incons m)) (or_zeros C (ml_ambiguity m)) /\
      regular x (cid_of cids) p.

(** The log-likelihood per vote is lower by ln |k|, the density of a vote on
    the other scale being 1 / |k| of its density. *)
Definition fit_on_scale (k : R) (m m' : mleres ef) : Prop :=
  ml_ll m' = ef_sub (ml_ll m) (Fin (ln (Rabs k))) /\ ml_aic m' = ef_add (ml_aic m) (Fin (2 * ln (Rabs k))) /\
  ml_bic m' = ef_add (ml_bic m) (Fin (2 * ln (Rabs k))).
