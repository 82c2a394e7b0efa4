(** Bootstrapped confidence intervals: C65, C77. *)
From Coq Require Import String.
From Coq Require Import List ZArith Bool Arith Reals Lra.
From Verif Require Import PyBase Num ExtReal NumPy Dataset Mocked Preproc Mos AP Mle Experimental SpecExperimental Exp2Proofs SpecMos SpecAp SpecMle MosWitness MleWitness ExpWitness ExpWitness2 ExpWitness3.
Import ListNotations.
Local Open Scope R_scope.

(** C65, subjects: every replicate is a maximum likelihood run on the votes of the
    subjects drawn, with scores and biases shifted so that predictions stay and
    biases agree with the reference ones on average (as long as the biases are
    numbers); the quality intervals span the replicates. *)
Theorem C65_subjects_partial : forall chi choice, index_draws choice -> forall c ds rd k o bo res,
  raw_reader ds = Ok rd -> boot_run chi choice c rd k o bo = Ok res -> on (bo_subjects bo) = true ->
  exists ref n reps ci, mle_run chi (boot_base c) rd k (unforced o) = Ok ref /\ get_num_observers (ds_dis ds) = Ok n /\
    length reps = replicates bo /\ (0 < replicates bo)%nat /\
    (forall i r, nth_error reps i = Some r -> subject_resample chi c ds k (unforced o) ref (choice i n) r) /\
    br_quality_ci res = Some ci /\ spans (ml_quality ref) (map ml_quality reps) ci.
Proof. exact c65_subjects. Qed.
Print Assumptions C65_subjects_partial.
(** C65, videos. *)
Theorem C65_videos_partial : forall chi choice, index_draws choice -> forall c ds rd k o bo res,
  raw_reader ds = Ok rd -> boot_run chi choice c rd k o bo = Ok res -> on (bo_videos bo) = true ->
  exists ref reps rb rv bs vs ci_b ci_v, mle_run chi (boot_base c) rd k (unforced o) = Ok ref /\
    length reps = replicates bo /\ (0 < replicates bo)%nat /\
    (forall i r, nth_error reps i = Some r -> video_resample chi c ds k (unforced o) ref (choice i (length (ds_dis ds))) r) /\
    ml_bias ref = Some rb /\ map ml_bias reps = map Some bs /\ br_bias_ci res = Some ci_b /\ spans rb bs ci_b /\
    ml_incons ref = Some rv /\ map ml_incons reps = map Some vs /\ br_incons_ci res = Some ci_v /\ spans rv vs ci_v.
Proof. exact c65_videos. Qed.
Print Assumptions C65_videos_partial.
(** Where the biases of the run or the reference biases drawn are not all
    numbers, the shift turns every score of the replicate into NaN. *)
Theorem C65_lost : forall chi choice, index_draws choice -> forall c ds ref n k o i r, subject_replicate chi choice c ds ref n k o i = Ok r ->
  forall m b rb, mle_run chi (boot_base c) (subject_reader ds (choice i n)) k o = Ok m -> ml_bias m = Some b -> ml_bias ref = Some rb ->
  (In NaN b \/ exists z, In z (choice i n) /\ nth (Z.to_nat z) rb NaN = NaN) -> Forall (eq NaN) (ml_quality r).
Proof. exact c65_lost. Qed.
Print Assumptions C65_lost.
(** So a single subject without votes leaves no interval, although all scores are numbers. *)
Theorem C65_silent_refuted : forall chi, exists choice ds rd o bo res q0 q1, index_draws choice /\ raw_reader ds = Ok rd /\
  boot_run chi choice MLE_CO_BSTP rd no_options o bo = Ok res /\ ml_quality (br_mle res) = [Fin q0; Fin q1] /\
  br_quality_ci res = Some ([NaN; NaN], [NaN; NaN]).
Proof.
  intro chi. destruct (wl_run chi) as (res & H & Q & C). exists wl_choice, wl_ds, (w_reader wl_ds), wx_opts, (BootOpts (Some 1%Z) None (Some false)), res, 3, 2.
  split; [exact wl_draws|]. split; [reflexivity|]. auto.
Qed.
Print Assumptions C65_silent_refuted.
Example C65_nonvacuous : forall chi, exists rd o res, index_draws wx_choice /\ raw_reader wx_ds = Ok rd /\
  boot_run chi wx_choice MLE_CO_BSTP rd no_options o (BootOpts (Some 1%Z) None None) = Ok res /\
  on (bo_subjects (BootOpts (Some 1%Z) None None)) = true /\ on (bo_videos (BootOpts (Some 1%Z) None None)) = true.
Proof.
  intro chi. destruct (wx_run chi) as (res & lo & hi & H & _). exists (w_reader wx_ds), (MleOpts None None (Some PInf) None), res.
  split; [exact wx_draws|]. split; [reflexivity|]. auto.
Qed.

(** C77: what a bootstrapped run reports besides the intervals. *)
Theorem C77_final : forall chi choice c rd k o bo res, boot_run chi choice c rd k o bo = Ok res ->
  exists ref, mle_run chi (boot_base c) rd k (unforced o) = Ok ref /\ same_but_scores ref (br_mle res) /\
    (on (mo_force o) = false -> br_mle res = ref) /\
    (on (mo_force o) = true -> forall b, ml_bias ref = Some (map Fin b) ->
       same_predictions ref (br_mle res) /\ exists b', ml_bias (br_mle res) = Some (map Fin b') /\ length b' = length b /\ Rsum b' = 0) /\
    (on (bo_subjects bo) = false -> br_quality_ci res = None) /\
    (on (bo_videos bo) = false -> br_bias_ci res = None /\ br_incons_ci res = None).
Proof. exact c77_final. Qed.
Print Assumptions C77_final.
(** The score itself need not lie in its interval: a margin can be negative. *)
Theorem C77_outside_refuted : forall chi, exists choice ds rd o bo res l0 l1 hi, index_draws choice /\ raw_reader ds = Ok rd /\
  boot_run chi choice MLE_CO_BSTP rd no_options o bo = Ok res /\ br_quality_ci res = Some ([Fin l0; Fin l1], hi) /\ l0 < 0.
Proof.
  intro chi. destruct (wx_run chi) as (res & lo & hi & H & Q & l0 & l1 & -> & L).
  exists wx_choice, wx_ds, (w_reader wx_ds), (MleOpts None None (Some PInf) None), (BootOpts (Some 1%Z) None None), res, l0, l1, hi.
  split; [exact wx_draws|]. split; [reflexivity|]. auto.
Qed.
Print Assumptions C77_outside_refuted.
(** With asset ids that are not positions, every bootstrap over videos fails
    although the model itself runs. *)
Theorem C77_asset_ids_refuted : forall chi, exists ds rd o bo, raw_reader ds = Ok rd /\ (exists m, mle_run chi MLE_CO rd no_options (unforced o) = Ok m) /\
  forall choice, index_draws choice -> boot_run chi choice MLE_CO_BSTP rd no_options o bo = Err KeyError.
Proof.
  intro chi. exists wk_ds, (w_reader wk_ds), wx_opts, (BootOpts (Some 1%Z) (Some false) None). split; [reflexivity|]. split; [exact (wk_ref chi)|exact (wk_run chi)].
Qed.
Print Assumptions C77_asset_ids_refuted.
Example C77_nonvacuous : forall chi, exists res ref, boot_run chi wx_choice MLE_CO_BSTP (w_reader wx_ds) no_options (MleOpts None None (Some PInf) None) (BootOpts (Some 1%Z) None None) = Ok res /\
  on (mo_force (MleOpts None None (Some (@PInf)) None)) = true /\ mle_run chi MLE_CO (w_reader wx_ds) no_options (unforced (MleOpts None None (Some PInf) None)) = Ok ref /\
  ml_bias ref = Some (map Fin [1 / 20; -1 / 20; 0]).
Proof.
  intro chi. destruct (wx_run chi) as (res & lo & hi & H & _). destruct (wx_ref chi) as (ref & R & _ & B & _). exists res, ref. auto.
Qed.
