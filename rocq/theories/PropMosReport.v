(** Theorems for claims C73 and C78: the other entries of MOS results, and the
    values the likelihood models start from. *)
From Coq Require Import String.
From Coq Require Import List ZArith Bool Arith Reals Lra Lia.
From Verif Require Import PyBase Num ExtReal NumPy Dataset Preproc Mos AP Mle SpecMos SpecAp SpecMle SpecMosReport
  ExtRealProofs MosProofs MosReportProofs MosWitness MleWitness.
Import ListNotations.
Local Open Scope R_scope.

(** C73. *)
Theorem C73_report : forall c (rd : reader ef) k a0 m, rd_arr rd = Ok a0 -> finite_votes a0 -> (forall rs, ds_ref_score (rd_ds rd) = Some (Some rs) -> finnan rs) ->
  kw_normalize_final k = false -> kw_transform_final k = None -> run_modeling c rd k = Ok m -> finite_votes (mr_raw m) /\ mos_report c rd a0 m.
Proof. exact c73. Qed.
Print Assumptions C73_report.

Example C73_nonvacuous : rd_arr (w_reader wc_ds) = Ok (w_arr wc_ds) /\ finite_votes (w_arr wc_ds) /\
  (forall rs, ds_ref_score (rd_ds (w_reader wc_ds)) = Some (Some rs) -> finnan rs) /\
  video_votes (w_arr wc_ds) 0 = [1; 3] /\ video_votes (w_arr wc_ds) 1 <> [] /\
  (exists m, run_modeling BR_MOS (w_reader wc_ds) no_options = Ok m) /\ (exists m, run_modeling MOS (w_reader wc_ds) no_options = Ok m).
Proof.
  split; [exact wc_arr|]. split; [exact (complete_fin _ wc_complete)|]. split; [intros rs H; injection H as <-; exact I|].
  split; [reflexivity|]. split; [discriminate|]. split; apply (plain_total _ _ _ _ _ wc_arr eq_refl); (apply no_conflict || reflexivity).
Qed.

(** C78. *)
Theorem C78_start : forall c (rd : reader ef) k a0 x cids C s, rd_arr rd = Ok a0 -> finite_votes a0 -> (forall rs, ds_ref_score (rd_ds rd) = Some (Some rs) -> finnan rs) ->
  length (rd_dvs rd) = dE a0 -> begins c rd k x cids C s ->
  exists q b v a, s = (q, b, v, a) /\ length q = dE x /\ length b = dS x /\ length v = dS x /\ length a = C /\
    (forall e, (e < dE x)%nat -> is_mean (nth e q NaN) (video_votes a0 e)) /\
    (forall i, (i < dS x)%nat -> nth i b NaN = Fin 0) /\
    (c = MLE_SO -> forall i, (i < dS x)%nat -> nth i v NaN = Fin 0) /\
    (c <> MLE_SO -> forall i, (i < dS x)%nat -> is_pop_std (nth i v NaN) (subject_residuals x (fun e => Rmean (video_votes a0 e)) i)) /\
    (c = MLE_CO \/ c = DMOS_MLE_CO -> forall j, (j < C)%nat -> nth j a NaN = Fin 0) /\
    (c <> MLE_CO -> c <> DMOS_MLE_CO -> forall j, (j < C)%nat -> is_pop_std (nth j a NaN) (content_residuals x (cid_of cids) (fun e => Rmean (video_votes a0 e)) j)).
Proof. exact c78. Qed.
Print Assumptions C78_start.

Example C78_nonvacuous : rd_arr (w_reader wf_ds) = Ok (w_arr wf_ds) /\ finite_votes (w_arr wf_ds) /\
  length (rd_dvs (w_reader wf_ds)) = dE (w_arr wf_ds) /\
  begins MLE_CO (w_reader wf_ds) no_options (w_arr wf_ds) [0; 0]%nat 2 (wf_q, wf_b, wf_v, wf_a).
Proof. repeat split; try exact wf_finite; try exact wf_begin. Qed.
