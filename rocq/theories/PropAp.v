(** Theorems for claims C38-C46 and C70: the projection solver.
    [chi] is the chi-squared quantile function; nothing is assumed about it. *)
From Coq Require Import String.
From Coq Require Import List ZArith Bool Arith Reals Lra Lia.
From Verif Require Import PyBase Num ExtReal NumPy Dataset Preproc Mos AP SpecMos SpecAp
  ExtRealProofs MosWitness Ap3Proofs Ap6Proofs Ap7Proofs Ap8Proofs Ap9Proofs Ap40Proofs Ap41Proofs ApWitness.
Import ListNotations.
Local Open Scope R_scope.

(** C38 for the projection solver, any reader and options. *)
Theorem C38_projection : forall (chi : ef -> ef -> ef) c (rd : reader ef) k f m, ap_run_modeling chi c rd k f = Ok m ->
  Forall nonneg (ap_incons m) /\ Forall nonneg (ap_incons_std m) /\ Forall nonneg (ap_bias_std m) /\ Forall nonneg (ap_quality_std m) /\
  Forall nonneg (ap_scores_std m) /\
  Forall nonneg (ap_quality_lo m) /\ Forall nonneg (ap_quality_hi m) /\ Forall nonneg (ap_bias_lo m) /\ Forall nonneg (ap_bias_hi m).
Proof. exact c38. Qed.
Print Assumptions C38_projection.

Example C38_projection_nonvacuous : forall chi, exists m, ap_run_modeling chi Projection (w_reader wp_ds) no_options None = Ok m /\ length (ap_incons m) = 3%nat.
Proof.
  intro chi. destruct (w_run chi Projection wp_ds None) as (m & H); [cbn; tauto|exact wp_finite|exact wp_rated|].
  exists m. split; [exact H|]. destruct (run_solved chi Projection (w_reader wp_ds) None (w_arr wp_ds) m) as (n & _ & S);
    [apply w_reads; cbn; tauto|exact wp_finite|left; exact wp_voted|exact H|].
  rewrite (sv_incons _ _ _ _ _ _ S). reflexivity.
Qed.

(** C39 when every subject voted on something. *)
Theorem C39_zero_mean_partial : forall (chi : ef -> ef -> ef) c (rd : reader ef) a m m', rd_arr rd = Ok a -> all_voted a ->
  ap_run_modeling chi c rd no_options (Some true) = Ok m -> ap_run_modeling chi c rd no_options (Some false) = Ok m' ->
  (exists bs, ap_bias m = map Fin bs /\ length bs = dS a /\ Rsum bs = 0) /\
  (exists k, ap_quality m = map (affine 1 k) (ap_quality m') /\ ap_bias m = map (affine 1 (- k)) (ap_bias m')) /\
  (forall e i r, inside a e i r -> at3 (ap_recon m) e i r = at3 (ap_recon m') e i r) /\
  ap_scores_mean m = ap_scores_mean m' /\ same_uncertainty m' m.
Proof. exact c39_any. Qed.
Print Assumptions C39_zero_mean_partial.

Example C39_nonvacuous : forall chi, rd_arr (w_reader wp_ds) = Ok (w_arr wp_ds) /\ finite_votes (w_arr wp_ds) /\ all_voted (w_arr wp_ds) /\
  (exists m, ap_run_modeling chi Projection (w_reader wp_ds) no_options (Some true) = Ok m) /\
  (exists m', ap_run_modeling chi Projection (w_reader wp_ds) no_options (Some false) = Ok m').
Proof.
  intro chi. split; [apply w_reads; cbn; tauto|]. split; [exact wp_finite|]. split; [exact wp_voted|].
  split; apply w_run; (cbn; tauto) || exact wp_finite || exact wp_rated.
Qed.

(** C39 fails when a subject has no votes: the reported biases are not numbers,
    and neither are quality scores and reconstructions. *)
Theorem C39_refuted : exists ds rd a, raw_reader ds = Ok rd /\ rd_arr rd = Ok a /\ finite_votes a /\ all_rated a /\
  forall chi c, exists m m', ap_run_modeling chi c rd no_options (Some true) = Ok m /\ ap_run_modeling chi c rd no_options (Some false) = Ok m' /\
    ap_bias m = repeat NaN 4 /\ ap_quality m = repeat NaN 2 /\ at3 (ap_recon m) 0 0 0 = NaN /\
    (exists q b, nth_error (ap_quality m') 0 = Some (Fin q) /\ nth_error (ap_bias m') 0 = Some (Fin b)).
Proof.
  exists wp3_ds, (w_reader wp3_ds), (w_arr wp3_ds).
  destruct (w_reads wp3_ds) as (R1 & R2 & _); [cbn; tauto|].
  split; [exact R1|]. split; [exact R2|]. split; [exact wp3_finite|]. split; [exact wp3_rated|].
  intros chi c.
  destruct (w_run chi c wp3_ds (Some true)) as (m & H); [cbn; tauto|exact wp3_finite|exact wp3_rated|].
  destruct (w_run chi c wp3_ds (Some false)) as (m' & H'); [cbn; tauto|exact wp3_finite|exact wp3_rated|].
  exists m, m'. split; [exact H|]. split; [exact H'|].
  destruct (run_poisoned chi c (w_reader wp3_ds) (Some true) (w_arr wp3_ds) m R2 wp3_finite wp3_idle_voted ltac:(discriminate) H) as (m0 & _ & Q).
  split; [exact (po_bias _ _ _ Q)|]. split; [exact (po_quality _ _ _ Q)|].
  split; [apply (po_recon _ _ _ Q); repeat split; cbn; lia|].
  destruct (run_solved chi c (w_reader wp3_ds) (Some false) (w_arr wp3_ds) m' R2 wp3_finite ltac:(right; reflexivity) H') as (n & _ & S).
  rewrite (sv_quality _ _ _ _ _ _ S), (sv_bias _ _ _ _ _ _ S). do 2 eexists. split; [reflexivity|].
  exact (f_equal Some (wp3_if_voted (Fin (eb_ (reported false (w_arr wp3_ds) (iterate (w_arr wp3_ds) n)) 0)))).
Qed.
Print Assumptions C39_refuted.

(** C40 for the projection solver: never more than 1000 passes, on any votes. *)
Theorem C40_projection_limit : forall (chi : ef -> ef -> ef) c ds (rd : reader ef) k f pp, raw_reader ds = Ok rd -> preprocess rd k = Ok pp ->
  ap_run_modeling chi c rd k f <> Err Diverges /\ forall m, ap_run_modeling chi c rd k f = Ok m -> (1 <= ap_iter m <= 1000)%nat.
Proof. exact c40_limit. Qed.
Print Assumptions C40_projection_limit.

(** It stops at the first change below the threshold. *)
Theorem C40_projection_stops : forall (chi : ef -> ef -> ef) c (rd : reader ef) k f pp m, preprocess rd k = Ok pp ->
  ap_run_modeling chi c rd k f = Ok m -> stops (pp_arr pp) (ap_iter m).
Proof. exact c40_stops_all. Qed.
Print Assumptions C40_projection_stops.

Example C40_projection_nonvacuous : forall chi, exists m, raw_reader wp_ds = Ok (w_reader wp_ds) /\
  preprocess (w_reader wp_ds) no_options = Ok (PP (w_arr wp_ds) (w_arr wp_ds) None None) /\ finite_votes (w_arr wp_ds) /\
  ap_run_modeling chi Projection (w_reader wp_ds) no_options None = Ok m.
Proof.
  intro chi. destruct (w_run chi Projection wp_ds None) as (m & H); [cbn; tauto|exact wp_finite|exact wp_rated|].
  exists m. split; [apply w_reads; cbn; tauto|]. split; [reflexivity|]. split; [exact wp_finite|exact H].
Qed.

(** C41. *)
Theorem C41_translation : forall (chi : ef -> ef -> ef) c (rd rd' : reader ef) f a a' k m m',
  rd_arr rd = Ok a -> rd_arr rd' = Ok a' -> transformed (affine 1 k) a a' ->
  ap_run_modeling chi c rd no_options f = Ok m -> ap_run_modeling chi c rd' no_options f = Ok m' ->
  ap_quality m' = map (affine 1 k) (ap_quality m) /\ ap_bias m' = ap_bias m /\
  ap_scores_mean m' = map (affine 1 k) (ap_scores_mean m) /\
  (forall e i r, inside a e i r -> at3 (ap_recon m') e i r = affine 1 k (at3 (ap_recon m) e i r)) /\
  same_uncertainty m m'.
Proof. exact c41_any. Qed.
Print Assumptions C41_translation.

Example C41_nonvacuous : forall chi, transformed (affine 1 1) (w_arr wp_ds) (w_arr wp1_ds) /\ finite_votes (w_arr wp_ds) /\
  rd_arr (w_reader wp_ds) = Ok (w_arr wp_ds) /\ rd_arr (w_reader wp1_ds) = Ok (w_arr wp1_ds) /\
  (exists m, ap_run_modeling chi Projection (w_reader wp_ds) no_options None = Ok m) /\
  (exists m', ap_run_modeling chi Projection (w_reader wp1_ds) no_options None = Ok m').
Proof.
  intro chi. split; [exact wp_shift|]. split; [exact wp_finite|]. split; [apply w_reads; cbn; tauto|]. split; [apply w_reads; cbn; tauto|].
  split; apply w_run; (cbn; tauto) || exact wp_finite || exact wp_rated || exact wp1_finite || exact wp1_rated.
Qed.

(** C42. *)
Theorem C42_offsets : forall (chi : ef -> ef -> ef) c (rd rd' : reader ef) f a a' d m m',
  rd_arr rd = Ok a -> rd_arr rd' = Ok a' -> complete_votes a -> offset_votes d a a' ->
  ap_run_modeling chi c rd no_options f = Ok m -> ap_run_modeling chi c rd' no_options f = Ok m' ->
  let mu := Rmean (map d (seq 0 (dS a))) in
  ap_quality m' = map (affine 1 mu) (ap_quality m) /\
  (forall i, (i < dS a)%nat -> nth i (ap_bias m') NaN = affine 1 (d i - mu) (nth i (ap_bias m) NaN)) /\
  length (ap_bias m') = length (ap_bias m) /\
  (forall i, (i < dS a)%nat -> nth i (ap_scores_mean m') NaN = affine 1 (d i) (nth i (ap_scores_mean m) NaN)) /\
  (forall e i r, inside a e i r -> at3 (ap_recon m') e i r = affine 1 (d i) (at3 (ap_recon m) e i r)) /\
  same_uncertainty m m'.
Proof. exact c42. Qed.
Print Assumptions C42_offsets.

Example C42_nonvacuous : forall chi, offset_votes wq_offset (w_arr wq_ds) (w_arr wq1_ds) /\ complete_votes (w_arr wq_ds) /\
  rd_arr (w_reader wq_ds) = Ok (w_arr wq_ds) /\ rd_arr (w_reader wq1_ds) = Ok (w_arr wq1_ds) /\
  (exists m, ap_run_modeling chi Projection2 (w_reader wq_ds) no_options None = Ok m) /\
  (exists m', ap_run_modeling chi Projection2 (w_reader wq1_ds) no_options None = Ok m').
Proof.
  intro chi. split; [exact wq_offsets|]. split; [exact wq_complete|]. split; [apply w_reads; cbn; tauto|]. split; [apply w_reads; cbn; tauto|].
  split; apply w_run; (cbn; tauto) || (apply complete_finite; exact wq_complete) || exact wq_rated || (apply complete_finite; exact wq1_complete) || exact wq1_rated.
Qed.

(** C43. *)
Theorem C43_permutation : forall (chi : ef -> ef -> ef) c (rd rd' : reader ef) f a a' pi sg m m',
  rd_arr rd = Ok a -> rd_arr rd' = Ok a' -> permutes (dE a) pi -> permutes (dS a) sg ->
  dE a' = dE a -> dS a' = dS a -> dR a' = dR a -> (forall e i r, inside a e i r -> at3 a' e i r = at3 a (pi e) (sg i) r) ->
  ap_run_modeling chi c rd no_options f = Ok m -> ap_run_modeling chi c rd' no_options f = Ok m' ->
  (let re := reindex (dE a) pi in
   ap_quality m' = re (ap_quality m) /\ ap_quality_std m' = re (ap_quality_std m) /\ ap_quality_lo m' = re (ap_quality_lo m) /\ ap_quality_hi m' = re (ap_quality_hi m)) /\
  (let re := reindex (dS a) sg in
   ap_bias m' = re (ap_bias m) /\ ap_bias_std m' = re (ap_bias_std m) /\ ap_bias_lo m' = re (ap_bias_lo m) /\ ap_bias_hi m' = re (ap_bias_hi m) /\
   ap_incons m' = re (ap_incons m) /\ ap_incons_std m' = re (ap_incons_std m) /\ ap_incons_lo m' = re (ap_incons_lo m) /\ ap_incons_hi m' = re (ap_incons_hi m) /\
   ap_scores_mean m' = re (ap_scores_mean m) /\ ap_scores_std m' = re (ap_scores_std m)) /\
  (forall e i r, inside a e i r -> at3 (ap_recon m') e i r = at3 (ap_recon m) (pi e) (sg i) r) /\
  ap_iter m' = ap_iter m /\ ap_dof m' = ap_dof m /\ ap_ll m' = ap_ll m /\ ap_aic m' = ap_aic m /\ ap_bic m' = ap_bic m.
Proof. exact c43_any. Qed.
Print Assumptions C43_permutation.

Example C43_nonvacuous : forall chi, finite_votes (w_arr wp_ds) /\ permutes (dE (w_arr wp_ds)) swap01 /\ permutes (dS (w_arr wp_ds)) swap01 /\
  (forall e i r, inside (w_arr wp_ds) e i r -> at3 (w_arr wp2_ds) e i r = at3 (w_arr wp_ds) (swap01 e) (swap01 i) r) /\
  rd_arr (w_reader wp_ds) = Ok (w_arr wp_ds) /\ rd_arr (w_reader wp2_ds) = Ok (w_arr wp2_ds) /\
  (exists m, ap_run_modeling chi Projection (w_reader wp_ds) no_options None = Ok m) /\
  (exists m', ap_run_modeling chi Projection (w_reader wp2_ds) no_options None = Ok m').
Proof.
  intro chi. split; [exact wp_finite|]. split; [apply swap_permutes; cbn; lia|]. split; [apply swap_permutes; cbn; lia|]. split; [exact wp_swap|].
  split; [apply w_reads; cbn; tauto|]. split; [apply w_reads; cbn; tauto|].
  split; apply w_run; (cbn; tauto) || exact wp_finite || exact wp_rated || exact wp2_finite || exact wp2_rated.
Qed.

(** C44. *)
Theorem C44_recovery : forall (chi : ef -> ef -> ef) c (rd : reader ef) f a q b m, rd_arr rd = Ok a ->
  (0 < dE a)%nat -> (0 < dS a)%nat -> (0 < dR a)%nat ->
  (forall e i r, inside a e i r -> at3 a e i r = Fin (q e + b i)) ->
  ap_run_modeling chi c rd no_options f = Ok m ->
  let mb := Rmean (map b (seq 0 (dS a))) in
  ap_quality m = map (fun e => Fin (q e + mb)) (seq 0 (dE a)) /\
  ap_bias m = map (fun i => Fin (b i - mb)) (seq 0 (dS a)) /\
  ap_incons m = map (fun _ => Fin 0) (seq 0 (dS a)) /\
  ap_quality_std m = map (fun _ => Fin 0) (seq 0 (dE a)) /\
  ap_bias_std m = map (fun _ => Fin 0) (seq 0 (dS a)) /\
  (forall e i r, inside a e i r -> at3 (ap_recon m) e i r = at3 a e i r) /\
  ap_iter m = 1%nat.
Proof. exact c44. Qed.
Print Assumptions C44_recovery.

Example C44_nonvacuous : forall chi, (forall e i r, inside (w_arr wn_ds) e i r -> at3 (w_arr wn_ds) e i r = Fin (wn_q e + wn_b i)) /\
  rd_arr (w_reader wn_ds) = Ok (w_arr wn_ds) /\ exists m, ap_run_modeling chi Projection (w_reader wn_ds) no_options None = Ok m.
Proof.
  intro chi. split; [exact wn_at|]. split; [apply w_reads; cbn; tauto|].
  apply w_run; [cbn; tauto| |exact wn_rated]. intros e i r H. rewrite wn_at by exact H. exact I.
Qed.

(** C45: in every state the loop passes through. *)
Theorem C45_hull : forall x s b e' e, finite_votes x -> all_rated x -> reachable x s b -> ap_pass x s b = Ok e' -> (e < dE x)%nat ->
  exists q, nth_error (es e') e = Some (Fin q) /\
  forall lo hi, (forall i r v bi, inside x e i r -> at3 x e i r = Fin v -> nth_error b i = Some (Fin bi) -> lo <= v - bi <= hi) -> lo <= q <= hi.
Proof. exact c45. Qed.
Print Assumptions C45_hull.

Example C45_nonvacuous : finite_votes (w_arr wp_ds) /\ all_rated (w_arr wp_ds) /\
  exists s b e, reachable (w_arr wp_ds) s b /\ ap_pass (w_arr wp_ds) s b = Ok e.
Proof. split; [exact wp_finite|]. split; [exact wp_rated|]. do 3 eexists. split; [apply reach_start|reflexivity]. Qed.

(** C46 with force_subjbias_zeromean switched off. *)
Theorem C46_idle_partial : forall (chi : ef -> ef -> ef) c (rd rd' : reader ef) a a' m m', rd_arr rd = Ok a -> rd_arr rd' = Ok a' -> idle_subjects a a' ->
  ap_run_modeling chi c rd no_options (Some false) = Ok m -> ap_run_modeling chi c rd' no_options (Some false) = Ok m' ->
  ap_quality m' = ap_quality m /\ ap_quality_std m' = ap_quality_std m /\ ap_quality_lo m' = ap_quality_lo m /\ ap_quality_hi m' = ap_quality_hi m /\
  ap_bias m' = ap_bias m ++ repeat NaN (dS a' - dS a) /\ ap_incons m' = ap_incons m ++ repeat NaN (dS a' - dS a) /\
  ap_iter m' = ap_iter m.
Proof. exact c46_any. Qed.
Print Assumptions C46_idle_partial.

(** By default a subject without votes turns every quality score into NaN. *)
Theorem C46_default : forall (chi : ef -> ef -> ef) c (rd' : reader ef) f a a' m', rd_arr rd' = Ok a' -> idle_subjects a a' -> (dS a < dS a')%nat -> f <> Some false ->
  ap_run_modeling chi c rd' no_options f = Ok m' -> ap_quality m' = repeat NaN (dE a') /\ ap_bias m' = repeat NaN (dS a').
Proof. exact c46_default_any. Qed.
Print Assumptions C46_default.

Theorem C46_refuted : exists ds ds' rd rd' a a', raw_reader ds = Ok rd /\ raw_reader ds' = Ok rd' /\ rd_arr rd = Ok a /\ rd_arr rd' = Ok a' /\
  finite_votes a /\ idle_subjects a a' /\
  forall chi c, exists m m', ap_run_modeling chi c rd no_options None = Ok m /\ ap_run_modeling chi c rd' no_options None = Ok m' /\
    Forall isfin (ap_quality m) /\ ap_quality m' = [NaN; NaN].
Proof.
  exists wp_ds, wp3_ds, (w_reader wp_ds), (w_reader wp3_ds), (w_arr wp_ds), (w_arr wp3_ds).
  destruct (w_reads wp_ds) as (R1 & R2 & _); [cbn; tauto|]. destruct (w_reads wp3_ds) as (R3 & R4 & _); [cbn; tauto|].
  split; [exact R1|]. split; [exact R3|]. split; [exact R2|]. split; [exact R4|]. split; [exact wp_finite|]. split; [exact wp_idle|].
  intros chi c.
  destruct (w_run chi c wp_ds None) as (m & H); [cbn; tauto|exact wp_finite|exact wp_rated|].
  destruct (w_run chi c wp3_ds None) as (m' & H'); [cbn; tauto|exact wp3_finite|exact wp3_rated|].
  exists m, m'. split; [exact H|]. split; [exact H'|]. split.
  - destruct (run_solved chi c (w_reader wp_ds) None (w_arr wp_ds) m R2 wp_finite ltac:(left; exact wp_voted) H) as (n & _ & S).
    rewrite (sv_quality _ _ _ _ _ _ S). apply Forall_map. apply Forall_forall. intros; exact I.
  - destruct (c46_default chi c (w_reader wp3_ds) None (w_arr wp_ds) (w_arr wp3_ds) m' R4 wp_finite wp_idle) as [-> _]; [cbn; lia|discriminate|exact H'|reflexivity].
Qed.
Print Assumptions C46_refuted.

Example C46_nonvacuous : forall chi, idle_subjects (w_arr wp_ds) (w_arr wp3_ds) /\
  (exists m, ap_run_modeling chi Projection (w_reader wp_ds) no_options (Some false) = Ok m) /\
  (exists m', ap_run_modeling chi Projection (w_reader wp3_ds) no_options (Some false) = Ok m').
Proof.
  intro chi. split; [exact wp_idle|].
  split; apply w_run; (cbn; tauto) || exact wp_finite || exact wp_rated || exact wp3_finite || exact wp3_rated.
Qed.

(** C70: the solver gives a result exactly when no vote is infinite and every
    video was rated, and raises ValueError otherwise. *)
Theorem C70_total : forall (chi : ef -> ef -> ef) c ds (rd : reader ef) f a, raw_reader ds = Ok rd -> rd_arr rd = Ok a ->
  ((finite_votes a /\ all_rated a) <-> exists m, ap_run_modeling chi c rd no_options f = Ok m) /\
  (~ (finite_votes a /\ all_rated a) <-> ap_run_modeling chi c rd no_options f = Err ValueError).
Proof. exact c70_total_any. Qed.
Print Assumptions C70_total.

(** C70: without the option the biases are centred. *)
Theorem C70_default : forall (chi : ef -> ef -> ef) c (rd : reader ef) k, ap_run_modeling chi c rd k None = ap_run_modeling chi c rd k (Some true).
Proof. reflexivity. Qed.
Print Assumptions C70_default.

(** C70: what the result is. *)
Theorem C70_result : forall (chi : ef -> ef -> ef) c (rd : reader ef) f a m, rd_arr rd = Ok a ->
  (all_voted a \/ f = Some false) -> ap_run_modeling chi c rd no_options f = Ok m ->
  exists n, stops a n /\ solved chi (is_alt c) (match f with Some b => b | None => true end) a n m.
Proof. exact run_solved_any. Qed.
Print Assumptions C70_result.

(** C70 with the zero-mean option and a subject without votes. *)
Theorem C70_poisoned : forall (chi : ef -> ef -> ef) c (rd : reader ef) f a m, rd_arr rd = Ok a ->
  ~ all_voted a -> f <> Some false -> ap_run_modeling chi c rd no_options f = Ok m ->
  exists m0, ap_run_modeling chi c rd no_options (Some false) = Ok m0 /\ poisoned a m0 m.
Proof. exact run_poisoned_any. Qed.
Print Assumptions C70_poisoned.

Example C70_nonvacuous : forall chi, finite_votes (w_arr wp_ds) /\ all_rated (w_arr wp_ds) /\ all_voted (w_arr wp_ds) /\
  ~ all_rated (w_arr wu_ds) /\ finite_votes (w_arr wu_ds) /\ ~ all_voted (w_arr wp3_ds) /\
  (exists m, ap_run_modeling chi Projection (w_reader wp3_ds) no_options None = Ok m).
Proof.
  intro chi. split; [exact wp_finite|]. split; [exact wp_rated|]. split; [exact wp_voted|]. split; [exact wu_unrated|].
  split; [exact wu_finite|]. split; [exact wp3_idle_voted|]. apply w_run; [cbn; tauto|exact wp3_finite|exact wp3_rated].
Qed.

