(** Theorems for claim C142: z-scored output of the Thurstone model. *)
From Coq Require Import List ZArith Bool Arith Reals Lra Lia.
From Verif Require Import PyBase Num ExtReal NumPy PairedComp SpecMos SpecBt BtWitness SpecThZ ThZProofs.
Import ListNotations.
Local Open Scope R_scope.

(** C142: asking for z-scores changes neither failure nor the error raised. *)
Theorem C142_errors : forall cdf slsqp pinv simplified (a : arr3 ef) e,
  th_run cdf slsqp pinv simplified true a = Err e <-> th_run cdf slsqp pinv simplified false a = Err e.
Proof. exact th_z_errors. Qed.
Print Assumptions C142_errors.

(** C142 for the scores and their standard deviations. *)
Theorem C142_scores : forall cdf slsqp pinv simplified (a : arr3 ef) m x st,
  th_run cdf slsqp pinv simplified false a = Ok (vec m x, st) -> spread_out m x ->
  exists mu d z st', th_run cdf slsqp pinv simplified true a = Ok (vec m z, st') /\ standardized m mu d x z /\
    length st' = length st /\ (forall i, (i < length st)%nat -> nth i st' NaN = ef_div (nth i st NaN) (Fin d)).
Proof. exact th_z_scores. Qed.
Print Assumptions C142_scores.

(** C142 for the intervals: a value lies in one exactly if its image lies in the other. *)
Theorem C142_intervals : forall cdf slsqp pinv simplified (a : arr3 ef) m x sd,
  th_run cdf slsqp pinv simplified false a = Ok (vec m x, vec m sd) -> spread_out m x ->
  exists mu d z r h h', th_run cdf slsqp pinv simplified true a = Ok r /\ fst r = vec m z /\ standardized m mu d x z /\
    th_ci (vec m x, vec m sd) = vec m h /\ th_ci r = vec m h' /\
    forall i y, (i < m)%nat -> Rabs ((y - mu) / d - z i) <= h' i <-> Rabs (y - x i) <= h i.
Proof. exact th_z_intervals. Qed.
Print Assumptions C142_intervals.

(** C142 when all scores are equal: NaN scores, infinite deviations, no error. *)
Theorem C142_equal : forall cdf slsqp pinv simplified (a : arr3 ef) m x st,
  th_run cdf slsqp pinv simplified false a = Ok (vec m x, st) -> (0 < m)%nat -> ~ spread_out m x ->
  exists st', th_run cdf slsqp pinv simplified true a = Ok (map (fun _ => NaN) (seq 0 m), st') /\ length st' = length st /\
    (forall i y, (i < length st)%nat -> nth i st NaN = Fin y -> 0 < y -> nth i st' NaN = PInf).
Proof. exact th_z_equal. Qed.
Print Assumptions C142_equal.

(** Runs on two videos that meet the hypotheses: scores 1 and 0, and scores 0 and 0. *)
Example C142_met : th_run ncdf wz_min wz_pinv true false wb_votes = Ok (vec 2 wz_x, vec 2 (fun _ => 2)) /\ spread_out 2 wz_x.
Proof. exact (conj wz_run wz_spread). Qed.
Example C142_equal_met : th_run ncdf wz_same wz_pinv true false wb_votes = Ok (vec 2 (fun _ => 0), vec 2 (fun _ => 2)) /\ ~ spread_out 2 (fun _ => 0).
Proof. exact wz_equal. Qed.
Example C142_error_met : th_run ncdf wz_min (fun _ => Err LinAlgError) true false wb_votes = Err LinAlgError.
Proof. reflexivity. Qed.
