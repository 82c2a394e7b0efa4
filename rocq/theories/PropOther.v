(** Theorems for claims C40 and C79-C82: LIVE_DMOS, least squares, the early maximum
    likelihood model and scores per subject. *)
From Coq Require Import String.
From Coq Require Import List ZArith Bool Arith Reals Lra Lia.
From Verif Require Import SpecMosReport PyBase Num ExtReal NumPy Dataset Preproc Mos AP Mle OtherModels SpecDataset SpecConv SpecMos SpecAp SpecMle SpecOther
  ExtRealProofs StepsProofs MosProofs MosWitness ApWitness MleWitness LsProofs LegacyProofs Legacy2Proofs LiveProofs OtherWitness.
Import ListNotations.
Local Open Scope R_scope.

(** C79: asking for differential or z-scoring a second time is refused. *)
Theorem C79_conflict : forall (rd : reader ef) k, kw_dscore k = true \/ kw_zscore k = true -> live_run_modeling rd k = Err AssertionError.
Proof. exact c79_conflict. Qed.
Print Assumptions C79_conflict.

(** C79: otherwise the scores are the mean of the z-scored differences, mapped
    from [-3, 3] to [0, 100]; other preprocessing and the final options apply. *)
Theorem C79_live : forall (rd : reader ef) k, kw_dscore k = false -> kw_zscore k = false ->
  (forall m0, run_modeling MOS rd (live_options k) = Ok m0 -> finite_votes (mr_raw m0) ->
     exists m, live_run_modeling rd k = Ok m /\ or_quality m = postprocess k (map (affine (100 / 6) 50) (mr_quality m0)) /\
       or_bias m = None /\ or_incons m = None /\ or_observers m = mr_observers m0) /\
  (forall e, run_modeling MOS rd (live_options k) = Err e -> live_run_modeling rd k = Err e).
Proof. exact c79_live. Qed.
Print Assumptions C79_live.

(** C79: without options, the score of a video is the mean of (z+3)*100/6 over
    the z-scores of its DMOS votes. *)
Theorem C79_plain : forall (rd : reader ef) m1, run_modeling DMOS rd no_options = Ok m1 -> finite_votes (mr_raw m1) ->
  exists m z, live_run_modeling rd no_options = Ok m /\ z_scores (mr_raw m1) z /\ length (or_quality m) = dE (mr_raw m1) /\
    forall e, (e < dE (mr_raw m1))%nat -> is_mean (nth e (or_quality m) NaN) (map (fun t => (t + 3) * 100 / 6) (video_votes z e)).
Proof. exact c79_plain. Qed.
Print Assumptions C79_plain.

(** C79: the scores need not lie between 0 and 100. *)
Theorem C79_range_refuted : exists ds rd m q, raw_reader ds = Ok rd /\ live_run_modeling rd no_options = Ok m /\ In (Fin q) (or_quality m) /\ q < 0.
Proof.
  destruct wl_below as (m & q & H & N & L). exists wl_ds, (w_reader wl_ds), m, q. split; [exact (proj1 wl_reads)|]. split; [exact H|]. split; [exact (nth_error_In _ _ N)|exact L].
Qed.
Print Assumptions C79_range_refuted.

Example C79_nonvacuous : exists m1 m, run_modeling DMOS (w_reader wl_ds) no_options = Ok m1 /\ finite_votes (mr_raw m1) /\ dE (mr_raw m1) = 11%nat /\
  run_modeling MOS (w_reader wl_ds) (live_options no_options) = Ok m /\ kw_dscore (no_options : kwargs ef) = false.
Proof.
  destruct wl_run as (m1 & H & D & _). exists m1.
  assert (E : exists m, run_modeling MOS (w_reader wl_ds) (live_options no_options) = Ok m).
  { destruct (run_modeling MOS (w_reader wl_ds) (live_options no_options)) as [m|e] eqn:E; [exists m; reflexivity|]. exfalso.
    destruct wl_below as (m & q & L & _). rewrite (proj2 (C79_live _ no_options eq_refl eq_refl) e E) in L. discriminate. }
  destruct E as (m & E). exists m. split; [exact H|]. split; [exact (wl_finite _ H)|]. auto.
Qed.

(** C80: on complete votes the scores are the mean opinion scores, and the
    biases are the distances of the subjects' means from the overall mean.
    [pinv] stands for scipy.linalg.pinv. *)
Theorem C80_complete : forall pinv (rd : reader ef) k m0, kw_rej k = false -> run_modeling MOS rd k = Ok m0 ->
  complete_votes (mr_raw m0) -> dR (mr_raw m0) = 1%nat -> (0 < dE (mr_raw m0))%nat -> (0 < dS (mr_raw m0))%nat ->
  inverts pinv (dE (mr_raw m0)) (dS (mr_raw m0)) ->
  exists m, ls_run_modeling pinv rd k = Ok m /\ or_quality m = mr_quality m0 /\
    or_bias m = Some (map (fun i => Fin (own_mean (mr_raw m0) i - grand_mean (mr_raw m0))) (seq 0 (dS (mr_raw m0)))) /\
    or_incons m = None /\ or_observers m = mr_observers m0.
Proof. exact c80_complete. Qed.
Print Assumptions C80_complete.

(** C80: a single missing vote makes every score and bias missing. *)
Theorem C80_missing : forall pinv (rd : reader ef) k m0, kw_rej k = false -> run_modeling MOS rd k = Ok m0 -> finite_votes (mr_raw m0) ->
  dR (mr_raw m0) = 1%nat -> (exists e s, (e < dE (mr_raw m0))%nat /\ (s < dS (mr_raw m0))%nat /\ at3 (mr_raw m0) e s 0 = NaN) ->
  answers pinv (dE (mr_raw m0)) (dS (mr_raw m0)) ->
  exists m, ls_run_modeling pinv rd k = Ok m /\ or_quality m = postprocess k (repeat NaN (dE (mr_raw m0))) /\ or_bias m = Some (repeat NaN (dS (mr_raw m0))).
Proof. exact c80_missing_answers. Qed.
Print Assumptions C80_missing.

(** C80: subject rejection and repeated votes are refused. *)
Theorem C80_rejection : forall pinv (rd : reader ef) k, kw_rej k = true -> ls_run_modeling pinv rd k = Err AssertionError.
Proof. exact c80_rejection. Qed.
Print Assumptions C80_rejection.
Theorem C80_repetitions : forall pinv (rd : reader ef) k m0, kw_rej k = false -> run_modeling MOS rd k = Ok m0 -> dR (mr_raw m0) <> 1%nat ->
  ls_run_modeling pinv rd k = Err AssertionError.
Proof. exact c80_repetitions. Qed.
Print Assumptions C80_repetitions.

(** A pseudo-inverse exists for every number of videos and subjects. *)
Example C80_nonvacuous : (forall E S, (0 < E)%nat -> (0 < S)%nat -> exists pinv, inverts pinv E S) /\
  exists m, run_modeling MOS (w_reader wc_ds) no_options = Ok m /\ complete_votes (mr_raw m) /\ dE (mr_raw m) = 2%nat /\ dS (mr_raw m) = 2%nat /\ dR (mr_raw m) = 1%nat.
Proof.
  split; [intros E S HE HS; exists (ls_pinv E S); apply ls_pinv_inverts; assumption|].
  destruct (mos_total _ _ _ wc_reader wc_arr) as (m & H). exists m. split; [exact H|].
  destruct (mos_run_parts _ _ _ H) as (pp & Hp & -> & _). unfold preprocess in Hp. rewrite wc_arr in Hp. apply Ok_inj in Hp. subst pp. cbn [pp_arr]. split; [exact wc_complete|]. exact wc_shape.
Qed.
Example C80_missing_nonvacuous : (exists pinv, answers pinv 2 2) /\
  exists m, run_modeling MOS (w_reader wm_ds) no_options = Ok m /\ at3 (mr_raw m) 0 1 0 = NaN /\ dE (mr_raw m) = 2%nat /\ dS (mr_raw m) = 2%nat.
Proof.
  split; [exists (ls_pinv 2 2); intros a _; eexists; repeat split|]. destruct (mos_total wm_ds (w_reader wm_ds) (w_arr wm_ds) eq_refl eq_refl) as (m & H). exists m. split; [exact H|].
  destruct (mos_run_parts _ _ _ H) as (pp & Hp & -> & _). apply Ok_inj in Hp. subst pp. repeat split.
Qed.

(** C81: start values. *)
Theorem C81_start : forall x, finite_votes x -> exists q b v lv, leg_start x = (q, b, v, lv) /\
  length q = dE x /\ length b = dS x /\ length v = dS x /\ length lv = dS x /\
  (forall e, (e < dE x)%nat -> is_mean (nth e q NaN) (video_votes x e)) /\
  (forall i, (i < dS x)%nat -> nth i b NaN = Fin 0) /\
  (forall i, (i < dS x)%nat -> is_pop_std (nth i v NaN) (subject_residuals x (fun e => Rmean (video_votes x e)) i)) /\
  (forall i, (i < dS x)%nat -> nth i lv NaN = ef_ln (nth i v NaN)).
Proof. exact c81_start. Qed.
Print Assumptions C81_start.

(** C81: a pass moves the biases, then the inconsistencies (or their
    logarithms), then the scores one tenth of a Newton step for the likelihood
    of the votes at the values reached so far. *)
Theorem C81_pass : forall x (use_log : bool) q b v lv Q B V, finite_votes x -> holds_videos x q Q -> holds_subjects x b B -> holds_subjects x v V -> nonzero_spread x V ->
  (use_log = true -> positive_spread x V /\ holds_subjects x lv (fun i => ln (V i))) ->
  exists q' b' v' lv', leg_pass use_log x (q, b, v, lv) = (q', b', v', lv') /\
    (forall i, (i < dS x)%nat -> voted x i -> newton_move (fun t => plain_lik x Q (set_at B i t) V) (B i) (nth i b' NaN)) /\
    (exists B', holds_subjects x b' B' /\
      (use_log = false -> lv' = lv /\ forall i, (i < dS x)%nat -> voted x i -> newton_move (fun t => plain_lik x Q B' (set_at V i t)) (V i) (nth i v' NaN)) /\
      (use_log = true -> length v' = dS x /\ forall i, (i < dS x)%nat -> (voted x i -> newton_move (fun t => plain_lik x Q B' (set_at V i (exp t))) (ln (V i)) (nth i lv' NaN)) /\ nth i v' NaN = ef_exp (nth i lv' NaN)) /\
      (forall V', holds_subjects x v' V' -> nonzero_spread x V' ->
        forall e, (e < dE x)%nat -> rated x e -> newton_move (fun t => plain_lik x (set_at Q e t) B' V') (Q e) (nth e q' NaN))).
Proof. exact c81_pass. Qed.
Print Assumptions C81_pass.

(** C81: the passes end at the first one that moves the scores by less than
    1e-8, at the 5000th, or with a ValueError at the first one that moves them
    to something that is not a number; the biases are centred if asked for. *)
Theorem C81_run : forall (rd : reader ef) k o m0, kw_rej k = false -> run_modeling MOS rd k = Ok m0 -> finite_votes (mr_raw m0) -> dR (mr_raw m0) = 1%nat ->
  (exists n q b v lv m q' b', leg_stops (log_of o) (mr_raw m0) (leg_start (mr_raw m0)) n /\
     leg_passes (log_of o) (mr_raw m0) n (leg_start (mr_raw m0)) = (q, b, v, lv) /\
     Forall isfin q /\ length q = dE (mr_raw m0) /\ length b = dS (mr_raw m0) /\ length v = dS (mr_raw m0) /\
     leg_run_modeling rd k o = Ok m /\
     (force_of o = false -> q' = q /\ b' = b) /\ (force_of o = true -> centred q b q' b') /\
     or_quality m = postprocess k q' /\ or_bias m = Some b' /\ or_incons m = Some v /\ or_observers m = mr_observers m0) \/
  (exists n, leg_breaks (log_of o) (mr_raw m0) (leg_start (mr_raw m0)) n /\ leg_run_modeling rd k o = Err ValueError).
Proof. exact c81_run. Qed.
Print Assumptions C81_run.

(** C40 for this solver: it always ends, after at most 5000 passes, on any votes. *)
Theorem C40_legacy : forall ds (rd : reader ef) k o pp, raw_reader ds = Ok rd -> preprocess rd k = Ok pp ->
  leg_run_modeling rd k o <> Err Diverges /\
  forall m, leg_run_modeling rd k o = Ok m -> exists n q b v lv, leg_stops (log_of o) (pp_arr pp) (leg_start (pp_arr pp)) n /\
    leg_passes (log_of o) (pp_arr pp) n (leg_start (pp_arr pp)) = (q, b, v, lv) /\ or_incons m = Some v.
Proof. exact c40_legacy. Qed.
Print Assumptions C40_legacy.

(** C81: a video without a vote makes the run fail. *)
Theorem C81_unrated : forall (rd : reader ef) k o m0, kw_rej k = false -> run_modeling MOS rd k = Ok m0 -> finite_votes (mr_raw m0) -> dR (mr_raw m0) = 1%nat ->
  (exists e, (e < dE (mr_raw m0))%nat /\ ~ rated (mr_raw m0) e) -> leg_run_modeling rd k o = Err ValueError.
Proof. exact c81_unrated. Qed.
Print Assumptions C81_unrated.

(** C81: subject rejection and repeated votes are refused. *)
Theorem C81_rejection : forall (rd : reader ef) k o, kw_rej k = true -> leg_run_modeling rd k o = Err AssertionError.
Proof. exact c81_rejection. Qed.
Print Assumptions C81_rejection.
Theorem C81_repetitions : forall (rd : reader ef) k o m0, kw_rej k = false -> run_modeling MOS rd k = Ok m0 -> dR (mr_raw m0) <> 1%nat ->
  leg_run_modeling rd k o = Err AssertionError.
Proof. exact c81_repetitions. Qed.
Print Assumptions C81_repetitions.

(** Two videos and two subjects: one pass, and what it gives. *)
Example C81_nonvacuous : finite_votes (w_arr wf_ds) /\ dR (w_arr wf_ds) = 1%nat /\
  (exists m0, run_modeling MOS (w_reader wf_ds) no_options = Ok m0) /\
  (holds_videos (w_arr wf_ds) wf_q (fun e => match e with O => 3 | _ => 2 end) /\ holds_subjects (w_arr wf_ds) wf_b (fun _ => 0) /\
   holds_subjects (w_arr wf_ds) wf_v (fun _ => 1) /\ positive_spread (w_arr wf_ds) (fun _ => 1)) /\
  exists m, leg_run_modeling (w_reader wf_ds) no_options (LegOpts None None) = Ok m /\ or_quality m = [Fin 3; Fin 2] /\ or_bias m = Some [Fin 0; Fin 0] /\ or_incons m = Some [Fin 1; Fin 1].
Proof.
  split; [exact wf_finite|]. split; [reflexivity|]. split; [exact (mos_total _ _ _ (proj1 wf_reads) (proj1 (proj2 wf_reads)))|]. split; [|exact wf_leg].
  repeat split; try (intros i Hi _; change (i < 2)%nat in Hi; destruct i as [|[|i]]; [reflexivity|reflexivity|lia]). intros i _ _. lra.
Qed.

(** C82: the scores are the preprocessed votes themselves. *)
Theorem C82_scores : forall (rd : reader ef) k, no_final k ->
  (forall m0, run_modeling MOS rd k = Ok m0 -> per_run_modeling rd k = Ok (mr_raw m0, mr_observers m0)) /\
  (forall e, run_modeling MOS rd k = Err e -> per_run_modeling rd k = Err e).
Proof. exact c82_scores. Qed.
Print Assumptions C82_scores.

(** C82: for votes without repetition, the aggregated dataset has one entry per
    score in the order of videos and subjects if every video has as many scores
    as recorded votes, and the conversion is refused otherwise. *)
Theorem C82_dataset : forall (rd : reader ef) k kw m0, no_final k -> run_modeling MOS rd k = Ok m0 -> dR (mr_raw m0) = 1%nat ->
  length (rd_dvs rd) = dE (mr_raw m0) -> (forall dv, In dv (rd_dvs rd) -> exists n, recorded_votes dv n) ->
  ((forall e dv n, nth_error (rd_dvs rd) e = Some dv -> recorded_votes dv n -> length (kept_scores (mr_raw m0) dv e) = n) ->
     exists ds' blocks, per_dataset rd k kw = Ok ds' /\ ds_refs ds' = ds_refs (rd_ds rd) /\ attributes_kept (rd_ds rd) kw ds' /\
       ds_dis ds' = concat blocks /\ length blocks = dE (mr_raw m0) /\
       forall e dv, nth_error (rd_dvs rd) e = Some dv -> exists bl, nth_error blocks e = Some bl /\
         Forall2 (score_copy dv) (kept_scores (mr_raw m0) dv e) bl) /\
  ((exists e dv n, nth_error (rd_dvs rd) e = Some dv /\ recorded_votes dv n /\ length (kept_scores (mr_raw m0) dv e) <> n) ->
     per_dataset rd k kw = Err AssertionError).
Proof. exact c82_single. Qed.
Print Assumptions C82_dataset.

(** C82: votes recorded as lists may be repeated; the entry then has the list of
    repetitions. *)
Theorem C82_repeated : forall (rd : reader ef) k kw m0, no_final k -> run_modeling MOS rd k = Ok m0 -> length (rd_dvs rd) = dE (mr_raw m0) ->
  (forall dv, In dv (rd_dvs rd) -> exists b l, dv_os dv = Some (OSeq b l) /\ length l = dS (mr_raw m0)) ->
  exists ds' blocks, per_dataset rd k kw = Ok ds' /\ ds_refs ds' = ds_refs (rd_ds rd) /\ attributes_kept (rd_ds rd) kw ds' /\
    ds_dis ds' = concat blocks /\ length blocks = dE (mr_raw m0) /\
    forall e dv, nth_error (rd_dvs rd) e = Some dv -> exists bl, nth_error blocks e = Some bl /\
      Forall2 (persubject_entry dv) (map (score_of (mr_raw m0) e) (seq 0 (dS (mr_raw m0)))) bl.
Proof. exact c82_dataset. Qed.
Print Assumptions C82_repeated.

(** C82: repeated votes recorded by name cannot be converted. *)
Theorem C82_repeated_refuted : exists ds rd m, raw_reader ds = Ok rd /\ run_modeling MOS rd no_options = Ok m /\ dR (mr_raw m) = 2%nat /\
  forall kw, per_dataset rd no_options kw = Err TypeError.
Proof.
  destruct wr_repeated as (R1 & (m & H & D) & E). exists wr_ds, (w_reader wr_ds), m. split; [exact R1|]. split; [exact H|]. split; [exact D|exact E].
Qed.
Print Assumptions C82_repeated_refuted.

(** Complete votes in lists; a missing vote recorded by name. *)
Example C82_nonvacuous : (exists m, run_modeling MOS (w_reader wc_ds) no_options = Ok m /\ dR (mr_raw m) = 1%nat /\
    forall e dv n, nth_error (rd_dvs (w_reader wc_ds)) e = Some dv -> recorded_votes dv n -> length (kept_scores (mr_raw m) dv e) = n) /\
  (exists m dv, run_modeling MOS (w_reader wm_ds) no_options = Ok m /\ nth_error (rd_dvs (w_reader wm_ds)) 0 = Some dv /\ recorded_votes dv 2 /\ length (kept_scores (mr_raw m) dv 0) <> 2%nat).
Proof.
  split.
  - destruct (mos_total _ _ _ wc_reader wc_arr) as (m & H). exists m. split; [exact H|].
    destruct (mos_run_parts _ _ _ H) as (pp & Hp & -> & _). unfold preprocess in Hp. rewrite wc_arr in Hp. apply Ok_inj in Hp. subst pp. cbn [pp_arr]. split; [reflexivity|].
    intros e dv n He R. destruct e as [|[|e]]; cbn in He; [| |destruct e; discriminate]; injection He as <-;
      (destruct R as [(b & l & E & ->)|(d & E & ->)]; [injection E as _ <-; reflexivity|discriminate]).
  - destruct (mos_total wm_ds (w_reader wm_ds) (w_arr wm_ds) eq_refl eq_refl) as (m & H). exists m. eexists. split; [exact H|]. split; [reflexivity|]. split; [right; eexists; split; reflexivity|].
    destruct (mos_run_parts _ _ _ H) as (pp & Hp & -> & _). apply Ok_inj in Hp. subst pp. cbn. discriminate.
Qed.
