(** Theorems for claims C33, C36-C40 and C71: the maximum likelihood models.
    [chi] is the chi-squared quantile function; nothing is assumed about it. *)
From Coq Require Import String.
From Coq Require Import List ZArith Bool Arith Reals Lra Lia.
From Verif Require Import MosReportProofs PyBase Num ExtReal NumPy Dataset Preproc Mos AP Mle SpecMos SpecAp SpecMle
  ExtRealProofs MosWitness ApWitness Mle6Proofs Mle7Proofs Mle8Proofs Mle9Proofs MleWitness Mle2Witness.
Import ListNotations.
Local Open Scope R_scope.

(** C33: subject rejection is refused by every likelihood model. *)
Theorem C33_mle : forall (chi : ef -> ef -> ef) c (rd : reader ef) k o, kw_rej k = true -> mle_run_modeling chi c rd k o = Err AssertionError.
Proof. exact c33. Qed.
Print Assumptions C33_mle.

(** C33: the DMOS classes refuse differential scoring asked for by the caller. *)
Theorem C33_mle_dscore : forall (chi : ef -> ef -> ef) (rd : reader ef) k o c, (c = DMOS_MLE \/ c = DMOS_MLE_CO) -> kw_dscore k = true -> mle_run_modeling chi c rd k o = Err AssertionError.
Proof. exact c33_dscore. Qed.
Print Assumptions C33_mle_dscore.

(** C33: otherwise they are the plain classes with differential scoring. *)
Theorem C33_mle_announced : forall (chi : ef -> ef -> ef) (rd : reader ef) k o c c', (c = DMOS_MLE /\ c' = MLE) \/ (c = DMOS_MLE_CO /\ c' = MLE_CO) -> kw_dscore k = false ->
  mle_run_modeling chi c rd k o = mle_run_modeling chi c' rd (KW true (kw_zscore k) (kw_bias k) (kw_rej k) (kw_rejtype k) (kw_normalize_final k) (kw_transform_final k)) o.
Proof. exact c33_announced. Qed.
Print Assumptions C33_mle_announced.

Example C33_mle_nonvacuous : forall chi, mle_run_modeling chi MLE_CO (w_reader wf_ds) (KW false false false true None false None) (MleOpts None None None None) = Err AssertionError /\
  exists m, mle_run_modeling chi MLE_CO (w_reader wf_ds) no_options (MleOpts None None None None) = Ok m.
Proof.
  intro chi. split; [apply C33_mle; reflexivity|]. destruct (wf_run chi None) as (m & H & _). exists m. exact H.
Qed.

(** C36 for runs that stay clear of degenerate states: wherever there is a vote, the values are finite and its variance is positive. *)
Theorem C36_agree_partial : forall (chi : ef -> ef -> ef) c (rd : reader ef) k o m,
  gradient_of o = Simplified -> mle_run_modeling chi c rd k o = Ok m ->
  (forall x cids C s, begins c rd k x cids C s -> finite_votes x /\
     forall j s', (j <= ml_iter m)%nat -> passes (mode_of c) Simplified (pdf_of o) x cids C j s = Ok s' -> regular_state x cids C s') ->
  mle_run_modeling chi c rd k (MleOpts (Some Original) (mo_pdf o) (mo_delta o) (mo_force o)) = Ok m.
Proof. exact c36. Qed.
Print Assumptions C36_agree_partial.

Example C36_nonvacuous : forall chi, exists m, mle_run_modeling chi MLE_CO (w_reader wf_ds) no_options (MleOpts None None None None) = Ok m /\
  (forall x cids C s, begins MLE_CO (w_reader wf_ds) no_options x cids C s -> finite_votes x /\
     forall j s', (j <= ml_iter m)%nat -> passes ContentOblivious Simplified GaussianPdf x cids C j s = Ok s' -> regular_state x cids C s').
Proof.
  intro chi. destruct (wf_run chi None) as (m & H & _). exists m. split; [exact H|]. intros x cids C s B.
  destruct (wf_begins x cids C s B) as (-> & -> & -> & ->). split; [exact wf_finite|]. intros j s' _ P.
  rewrite (wf_passes j) in P. injection P as <-. exists wf_p. split; [exact wf_holds|exact wf_regular].
Qed.

(** C36 is false without that condition: a subject whose inconsistency reaches
    0 divides by zero in one method only. *)
Theorem C36_refuted : exists ds rd a, raw_reader ds = Ok rd /\ rd_arr rd = Ok a /\ finite_votes a /\
  forall chi, mle_run_modeling chi MLE rd no_options (MleOpts (Some Simplified) None None None) = Err ValueError /\
    exists m, mle_run_modeling chi MLE rd no_options (MleOpts (Some Original) None None None) = Ok m /\ ml_iter m = 1%nat.
Proof.
  exists wg_ds, (w_reader wg_ds), (w_arr wg_ds). destruct wg_reads as (R1 & R2 & _).
  split; [exact R1|]. split; [exact R2|]. split; [exact wg_finite|]. exact wg_differ.
Qed.
Print Assumptions C36_refuted.

(** C37: the new biases and their stds come from a Newton step on the log-likelihood, taken to one tenth. *)
Theorem C37_bias : forall mode g pdf (x : arr3 ef) cids C q b v a st, finite_votes x -> fits x cids C -> g = Simplified \/ g = Original ->
  mle_pass mode g pdf x cids C q b v a = Ok st ->
  mode <> SubjectOblivious -> forall p, holds x cids C p q b v a -> regular x (cid_of cids) p -> forall i, (i < dS x)%nat -> voted x i ->
  updated (fun y => y) (fun t => log_lik x (cid_of cids) (with_b p i t)) (pb p i) (nth i (sb st) NaN) (nth i (sb_std st) NaN).
Proof. exact c37_bias. Qed.
Print Assumptions C37_bias.

(** C37: the same for inconsistencies, with negative values replaced by 0; the biases are the new ones. *)
Theorem C37_inconsistency : forall mode g pdf (x : arr3 ef) cids C q b v a st, finite_votes x -> fits x cids C -> g = Simplified \/ g = Original ->
  mle_pass mode g pdf x cids C q b v a = Ok st ->
  mode <> SubjectOblivious -> forall p, holds x cids C p q (sb st) v a -> regular x (cid_of cids) p -> forall i, (i < dS x)%nat -> voted x i ->
  updated clipped (fun t => log_lik x (cid_of cids) (with_v p i t)) (pv p i) (nth i (sv st) NaN) (nth i (sv_std st) NaN).
Proof. exact c37_inconsistency. Qed.
Print Assumptions C37_inconsistency.

(** C37: the same for ambiguities. *)
Theorem C37_ambiguity : forall mode g pdf (x : arr3 ef) cids C q b v a st, finite_votes x -> fits x cids C -> g = Simplified \/ g = Original ->
  mle_pass mode g pdf x cids C q b v a = Ok st ->
  mode <> ContentOblivious -> forall p, holds x cids C p q (sb st) (sv st) a -> regular x (cid_of cids) p -> forall c, content_rated x (cid_of cids) c ->
  updated clipped (fun t => log_lik x (cid_of cids) (with_a p c t)) (pa p c) (nth c (sa st) NaN) (nth c (sa_std st) NaN).
Proof. exact c37_ambiguity. Qed.
Print Assumptions C37_ambiguity.

(** C37: the same for quality scores, after all other updates of the pass. *)
Theorem C37_quality : forall mode g pdf (x : arr3 ef) cids C q b v a st, finite_votes x -> fits x cids C -> g = Simplified \/ g = Original ->
  mle_pass mode g pdf x cids C q b v a = Ok st ->
  forall p, holds x cids C p q (sb st) (sv st) (sa st) -> regular x (cid_of cids) p -> forall e, (e < dE x)%nat -> rated x e ->
  updated (fun y => y) (fun t => log_lik x (cid_of cids) (with_q p e t)) (pq p e) (nth e (sx st) NaN) (nth e (sx_std st) NaN).
Proof. exact c37_quality. Qed.
Print Assumptions C37_quality.

Example C37_nonvacuous : exists st, mle_pass ContentOblivious Simplified GaussianPdf (w_arr wf_ds) [0; 0]%nat 2 wf_q wf_b wf_v wf_a = Ok st /\
  finite_votes (w_arr wf_ds) /\ fits (w_arr wf_ds) [0; 0]%nat 2 /\ regular (w_arr wf_ds) (cid_of [0; 0]%nat) wf_p /\
  holds (w_arr wf_ds) [0; 0]%nat 2 wf_p wf_q wf_b wf_v wf_a /\
  holds (w_arr wf_ds) [0; 0]%nat 2 wf_p wf_q (sb st) wf_v wf_a /\
  holds (w_arr wf_ds) [0; 0]%nat 2 wf_p wf_q (sb st) (sv st) wf_a /\
  holds (w_arr wf_ds) [0; 0]%nat 2 wf_p wf_q (sb st) (sv st) (sa st).
Proof.
  destruct (wf_pass GaussianPdf) as (xs & bs & vs & E). eexists. split; [exact E|]. cbn [sb sv sa].
  pose proof wf_holds. repeat (split; [first [exact wf_finite|exact wf_fits|exact wf_regular|assumption]|]). assumption.
Qed.

Example C37_nonvacuous_ambiguity : exists st, mle_pass ModeDefault Simplified GaussianPdf (w_arr wf_ds) [0; 0]%nat 2 wf_q wf_b wf_v wf_v = Ok st /\
  (exists p, holds (w_arr wf_ds) [0; 0]%nat 2 p wf_q wf_b wf_v wf_v /\ regular (w_arr wf_ds) (cid_of [0; 0]%nat) p) /\
  (exists p, holds (w_arr wf_ds) [0; 0]%nat 2 p wf_q (sb st) (sv st) wf_v /\ regular (w_arr wf_ds) (cid_of [0; 0]%nat) p) /\
  content_rated (w_arr wf_ds) (cid_of [0; 0]%nat) 0.
Proof. exact wf_default_pass. Qed.

(** C38 for the likelihood models. *)
Theorem C38_mle : forall (chi : ef -> ef -> ef) c (rd : reader ef) k o m, mle_run_modeling chi c rd k o = Ok m ->
  Forall nonneg (ml_quality_std m) /\ Forall nonneg (ml_quality_lo m) /\ Forall nonneg (ml_quality_hi m) /\
  opt_nonneg (ml_bias_std m) /\ opt_nonneg (ml_bias_lo m) /\ opt_nonneg (ml_bias_hi m) /\
  opt_nonneg (ml_incons m) /\ opt_nonneg (ml_incons_std m) /\
  opt_nonneg (ml_ambiguity m) /\ opt_nonneg (ml_ambiguity_std m) /\ opt_nonneg (ml_ambiguity_lo m) /\ opt_nonneg (ml_ambiguity_hi m) /\
  (c = MLE_SO <-> ml_bias m = None) /\ (c = MLE_SO <-> ml_incons m = None) /\
  (c = MLE_CO \/ c = DMOS_MLE_CO <-> ml_ambiguity m = None).
Proof. exact c38_classes. Qed.
Print Assumptions C38_mle.

(** C38: the oblivious modes work with zeros in every pass, and no pass leaves a negative inconsistency or ambiguity. *)
Theorem C38_mle_modes : forall c (rd : reader ef) k x cids C s g pdf j q b v a, begins c rd k x cids C s ->
  passes (mode_of c) g pdf x cids C j s = Ok (q, b, v, a) ->
  (c = MLE_CO \/ c = DMOS_MLE_CO -> a = repeat (Fin 0) C) /\
  (c = MLE_SO -> b = repeat (Fin 0) (dS x) /\ v = repeat (Fin 0) (dS x)) /\
  ((1 <= j)%nat -> Forall nonneg v /\ Forall nonneg a).
Proof. exact c38_modes_classes. Qed.
Print Assumptions C38_mle_modes.

Example C38_mle_nonvacuous : forall chi, exists m, mle_run_modeling chi MLE_CO (w_reader wf_ds) no_options (MleOpts None None None (Some false)) = Ok m /\
  ml_bias m = Some wf_b /\ begins MLE_CO (w_reader wf_ds) no_options (w_arr wf_ds) [0; 0]%nat 2 (wf_q, wf_b, wf_v, wf_a) /\
  forall j, passes ContentOblivious Simplified GaussianPdf (w_arr wf_ds) [0; 0]%nat 2 j (wf_q, wf_b, wf_v, wf_a) = Ok (wf_q, wf_b, wf_v, wf_a).
Proof.
  intro chi. destruct (wf_run chi (Some false)) as (m & H & _ & _ & B). exists m. split; [exact H|]. split; [apply B; reflexivity|].
  split; [exact wf_begin|exact wf_passes].
Qed.

(** C39 for the likelihood models, when no reported bias is missing. *)
Theorem C39_mle_partial : forall (chi : ef -> ef -> ef) c (rd : reader ef) k g pdf d m m', kw_normalize_final k = false -> kw_transform_final k = None ->
  mle_run_modeling chi c rd k (MleOpts g pdf d (Some true)) = Ok m -> mle_run_modeling chi c rd k (MleOpts g pdf d (Some false)) = Ok m' ->
  (0 < dS (ml_raw m'))%nat -> (forall b, ml_bias m' = Some b -> Forall isfin b) ->
  exists t,
    ml_quality m = map (affine 1 t) (ml_quality m') /\
    ml_bias m = option_map (map (affine 1 (- t))) (ml_bias m') /\
    (forall b, ml_bias m = Some b -> exists r, b = map Fin r /\ length r = dS (ml_raw m') /\ Rsum r = 0) /\
    (forall e i r, at3 (ml_recon m) e i r = at3 (ml_recon m') e i r) /\ same_report m m'.
Proof. exact c39. Qed.
Print Assumptions C39_mle_partial.

Example C39_mle_nonvacuous : forall chi, exists m m', mle_run_modeling chi MLE_CO (w_reader wf_ds) no_options (MleOpts None None None (Some true)) = Ok m /\
  mle_run_modeling chi MLE_CO (w_reader wf_ds) no_options (MleOpts None None None (Some false)) = Ok m' /\
  (0 < dS (ml_raw m'))%nat /\ (forall b, ml_bias m' = Some b -> Forall isfin b).
Proof.
  intro chi. destruct (wf_run chi (Some true)) as (m & H & _). destruct (wf_run chi (Some false)) as (m' & H' & _ & R & B).
  exists m, m'. split; [exact H|]. split; [exact H'|]. split; [rewrite R; cbn; lia|]. intros b E. rewrite (B eq_refl) in E. injection E as <-.
  repeat constructor.
Qed.

(** C40: the loop always ends. *)
Theorem C40_mle_terminates : forall (chi : ef -> ef -> ef) c ds (rd : reader ef) k o x cids C s, raw_reader ds = Ok rd -> begins c rd k x cids C s ->
  mle_run_modeling chi c rd k o <> Err Diverges.
Proof. exact c40_terminates. Qed.
Print Assumptions C40_mle_terminates.

(** C40: it ends at the first change of the quality scores below the threshold, at the latest after 10000 passes. *)
Theorem C40_mle_stops : forall (chi : ef -> ef -> ef) c (rd : reader ef) k o x cids C s m, begins c rd k x cids C s -> mle_run_modeling chi c rd k o = Ok m ->
  stops_at (mode_of c) (gradient_of o) (pdf_of o) x cids C (threshold_of o) s (ml_iter m).
Proof. exact c40_stops. Qed.
Print Assumptions C40_mle_stops.

Example C40_mle_nonvacuous : forall chi, raw_reader wf_ds = Ok (w_reader wf_ds) /\
  begins MLE_CO (w_reader wf_ds) no_options (w_arr wf_ds) [0; 0]%nat 2 (wf_q, wf_b, wf_v, wf_a) /\
  exists m, mle_run_modeling chi MLE_CO (w_reader wf_ds) no_options (MleOpts None None None None) = Ok m /\ ml_iter m = 1%nat.
Proof.
  intro chi. destruct wf_reads as (R & _). split; [exact R|]. split; [exact wf_begin|]. destruct (wf_run chi None) as (m & H & I & _). exists m. auto.
Qed.

(** C71: every entry of the result. *)
Theorem C71_report : forall (chi : ef -> ef -> ef) c (rd : reader ef) k o a0 x cids C s m, rd_arr rd = Ok a0 -> finite_votes a0 -> begins c rd k x cids C s -> finite_votes x ->
  kw_normalize_final k = false -> kw_transform_final k = None -> mle_run_modeling chi c rd k o = Ok m ->
  exists q b v a, passes (mode_of c) (gradient_of o) (pdf_of o) x cids C (ml_iter m) s = Ok (q, b, v, a) /\
    ml_report chi (mode_of c) o a0 x cids C q b v a (ml_iter m) m.
Proof. exact c71. Qed.
Print Assumptions C71_report.

(** C71: options left out have these values. *)
Theorem C71_defaults : forall (chi : ef -> ef -> ef) c (rd : reader ef) k o, mle_run_modeling chi c rd k o =
  mle_run_modeling chi c rd k (MleOpts (Some (match mo_gradient o with Some g => g | None => Simplified end)) (Some (match mo_pdf o with Some p => p | None => GaussianPdf end))
    (Some (match mo_delta o with Some d => d | None => Fin (1 / 100000000) end)) (Some (match mo_force o with Some f => f | None => true end))).
Proof. exact c71_defaults. Qed.
Print Assumptions C71_defaults.

Example C71_nonvacuous : forall chi, rd_arr (w_reader wf_ds) = Ok (w_arr wf_ds) /\ finite_votes (w_arr wf_ds) /\
  begins MLE_CO (w_reader wf_ds) no_options (w_arr wf_ds) [0; 0]%nat 2 (wf_q, wf_b, wf_v, wf_a) /\
  exists m, mle_run_modeling chi MLE_CO (w_reader wf_ds) no_options (MleOpts None None None (Some false)) = Ok m /\
    ml_dof m = Fin (6 / 4) /\ ml_ll m = ef_div (Fin (log_lik (w_arr wf_ds) (cid_of [0; 0]%nat) wf_p)) (Fin (total_votes (w_arr wf_ds))).
Proof.
  intro chi. destruct wf_reads as (_ & R & _). split; [exact R|]. split; [exact wf_finite|]. split; [exact wf_begin|].
  destruct (wf_run chi (Some false)) as (m & H & I & _). exists m. split; [exact H|].
  destruct (C71_report chi _ _ _ _ _ _ _ _ _ m R wf_finite wf_begin wf_finite eq_refl eq_refl H) as (q & b & v & a & P & Q).
  change (passes ContentOblivious Simplified GaussianPdf (w_arr wf_ds) [0; 0]%nat 2 (ml_iter m) (wf_q, wf_b, wf_v, wf_a) = Ok (q, b, v, a)) in P.
  rewrite (wf_passes (ml_iter m)) in P. injection P as <- <- <- <-. split.
  - rewrite (rp_dof _ _ _ _ _ _ _ _ _ _ _ _ _ Q). exact wf_dof.
  - apply (rp_ll _ _ _ _ _ _ _ _ _ _ _ _ _ Q); [reflexivity| |exact wf_regular].
    rewrite (rp_quality _ _ _ _ _ _ _ _ _ _ _ _ _ Q eq_refl), (rp_bias _ _ _ _ _ _ _ _ _ _ _ _ _ Q eq_refl), (rp_incons _ _ _ _ _ _ _ _ _ _ _ _ _ Q), (rp_ambiguity _ _ _ _ _ _ _ _ _ _ _ _ _ Q).
    exact wf_holds.
Qed.

