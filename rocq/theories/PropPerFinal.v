(** Theorems for claim C116: the final options on scores per subject. *)
From Coq Require Import String.
From Coq Require Import List ZArith Bool Arith Reals Lra.
From Verif Require Import PyBase Num ExtReal NumPy Dataset Preproc Mos OtherModels SpecMos SpecRuns SpecPerFinal MosWitness OtherWitness PerFinalProofs.
Import ListNotations.
Local Open Scope R_scope.

(** C116: the polynomial is applied to each score; if it has a linear or quadratic
    term, missing scores stay missing. *)
Theorem C116_transform_partial : forall (rd : reader ef) k m0 p2 p1 p0, run_modeling MOS rd k = Ok m0 -> finite_votes (mr_raw m0) ->
  kw_normalize_final k = false -> kw_transform_final k = Some (option_map Fin p2, option_map Fin p1, option_map Fin p0) ->
  exists x, per_run_modeling rd k = Ok (x, mr_observers m0) /\ cellwise (polynomial p2 p1 p0) (mr_raw m0) x.
Proof. exact c116_transform. Qed.
Print Assumptions C116_transform_partial.

(** C116: without missing votes the scores are normalised together. *)
Theorem C116_normalize_partial : forall (rd : reader ef) k m0, run_modeling MOS rd k = Ok m0 -> none_missing (mr_raw m0) -> has_spread (all_votes (mr_raw m0)) ->
  kw_normalize_final k = true -> kw_transform_final k = None ->
  exists x sd, per_run_modeling rd k = Ok (x, mr_observers m0) /\ 0 < sd /\ sd * sd = pvar (all_votes (mr_raw m0)) /\
    cellwise (fun u v => exists a, u = Fin a /\ v = Fin ((a - Rmean (all_votes (mr_raw m0))) / sd)) (mr_raw m0) x.
Proof. exact c116_normalize. Qed.
Print Assumptions C116_normalize_partial.

(** With a missing vote, normalisation loses all scores. *)
Theorem C116_missing : forall (rd : reader ef) k m0, run_modeling MOS rd k = Ok m0 -> (exists e s r, inside (mr_raw m0) e s r /\ at3 (mr_raw m0) e s r = NaN) ->
  kw_normalize_final k = true -> kw_transform_final k = None ->
  exists x, per_run_modeling rd k = Ok (x, mr_observers m0) /\ cellwise (fun _ v => v = NaN) (mr_raw m0) x.
Proof. exact c116_missing. Qed.
Print Assumptions C116_missing.

(** C116 fails: a recorded vote becomes NaN ... *)
Theorem C116_normalize_refuted : exists (rd : reader ef) k m0 x e s r a, run_modeling MOS rd k = Ok m0 /\ finite_votes (mr_raw m0) /\ kw_normalize_final k = true /\
  per_run_modeling rd k = Ok (x, mr_observers m0) /\ inside (mr_raw m0) e s r /\ at3 (mr_raw m0) e s r = Fin a /\ at3 x e s r = NaN.
Proof. exact c116_normalize_refuted. Qed.
Print Assumptions C116_normalize_refuted.

(** ... and with a constant only, a missing vote becomes a score. *)
Theorem C116_transform_refuted : exists (rd : reader ef) k m0 x e s r a, run_modeling MOS rd k = Ok m0 /\ finite_votes (mr_raw m0) /\ kw_normalize_final k = false /\
  per_run_modeling rd k = Ok (x, mr_observers m0) /\ inside (mr_raw m0) e s r /\ at3 (mr_raw m0) e s r = NaN /\ at3 x e s r = Fin a.
Proof. exact c116_transform_refuted. Qed.
Print Assumptions C116_transform_refuted.

Example C116_nonvacuous : (exists m, run_modeling MOS (w_reader wc_ds) wf_normal = Ok m /\ none_missing (mr_raw m) /\ has_spread (all_votes (mr_raw m))) /\
  (exists m, run_modeling MOS (w_reader wm_ds) wf_line = Ok m /\ finite_votes (mr_raw m) /\ at3 (mr_raw m) 0 0 0 = Fin 3 /\ at3 (mr_raw m) 0 1 0 = NaN).
Proof.
  split.
  - destruct (wf_wc wf_normal (or_introl eq_refl)) as (m & H & Er). exists m. rewrite Er. split; [exact H|]. split; [exact wc_none_missing|exact wc_spread].
  - destruct (wf_wm wf_line (or_intror (or_introl eq_refl))) as (m & H & Er). exists m. rewrite Er. split; [exact H|]. split; [exact wm_finite|]. split; apply wm_cells.
Qed.
