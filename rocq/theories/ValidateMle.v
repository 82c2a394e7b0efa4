(** Validation of Mle.v against the numbers in /repo/test/subjective_model_test.py and
    routine_test.py.  chi2.ppf is an argument of the model; it only enters the
    confidence intervals of the inconsistencies, which are not compared. *)
From Coq Require Import String.
From Coq Require Import List ZArith Bool Floats.
From Verif Require Import PyBase Num NumFloat NumPy Dataset Mocked Preproc Mos AP Mle OtherModels Perf Validate ValidateData ValidateMos ValidateAp ValidateLegacy.
Import ListNotations.
Set Warnings "-inexact-float".
Local Open Scope float_scope.

(** The model with its alternatives of a pass under the match on the gradient
    method, so that call by value computes only the chosen one; the same term up
    to unfolding. *)
Definition mle_run_lazy := Eval cbv beta delta [mle_run_modeling mle_run mle_solve mle_loop mle_pass pick] in (@mle_run_modeling float Num_float no_ppf).
Example mle_run_lazy_is_model : mle_run_lazy = mle_run_modeling no_ppf.
Proof. reflexivity. Qed.
Definition mle_of (c : mleclass) (ds : dataset float string) (g : gradmethod) (force : bool) : res (mleres float) :=
  do rd <- frozen_reader ds; mle_run_lazy c rd no_kwargs (MleOpts (Some g) None None (Some force)).
Definition sum_of (o : option (list float)) : list float := match o with Some l => [fsum l] | None => [] end.
(** Sum and variance of quality scores, bias, inconsistency and ambiguity. *)
Definition estimates (r : mleres float) : list float :=
  [fsum (ml_quality r); fvar (ml_quality r)] ++ sum_var (ml_bias r) ++ sum_var (ml_incons r) ++ sum_var (ml_ambiguity r).
(** Sums of the standard errors, in the same order. *)
Definition std_errors (r : mleres float) : list float :=
  [fsum (ml_quality_std r)] ++ sum_of (ml_bias_std r) ++ sum_of (ml_incons_std r) ++ sum_of (ml_ambiguity_std r).
Definition fit (r : mleres float) : list float :=
  [ml_dof r; ml_ll r; fstd3 (ml_raw r); fstd3 (ml_recon r); ml_aic r; ml_bic r].
Definition agree4_with (l e : list float) : bool := Nat.eqb (length l) (length e) && agree4 (combine l e).

(** subjective_model_test.py:448-477: content oblivious *)
Definition mle_co_nflx_run : bool := Eval vm_compute in
  (ran (mle_of MLE_CO nflx Simplified false) (fun r =>
  agree4_with (estimates r)
    [280.31447815213642; 1.4355485462027884; -0.0908409108; 0.0890325856; 15.681766163430936; 0.012565584832977776]
  && agree4_with (std_errors r) [8.907545016644042; 1.7643365374531321; 1.2475743287658851]
  && agree4_with (fit r)
    [0.06377799415774099; -0.8967394355890235; 1.3654128030298962; 1.2347392971084559; 1.921034859493529; 2.2799483527525326]
  && near4 (2 * fsum (ml_quality_lo r)) 34.91686386164329)).
Example mle_co_nflx : mle_co_nflx_run = true.
Proof. reflexivity. Qed.
(** subjective_model_test.py:502-519: subject oblivious *)
Definition mle_so_nflx_run : bool := Eval vm_compute in
  (ran (mle_of MLE_SO nflx Simplified false) (fun r =>
  agree4_with (estimates r) [280.0384615384616; 1.4012220200639218; 6.06982228334157; 0.0045809756997836721]
  && agree4_with [ml_dof r; ml_ll r; ml_aic r; ml_bic r]
    [0.042843232716650435; -1.02419628655795; 2.1340790385492006; 2.3751812324941803])).
Example mle_so_nflx : mle_so_nflx_run = true.
Proof. reflexivity. Qed.

(** The doctests of convolution_of_two_uniforms (sureal/tools/stats.py:80-101),
    to the last bit. *)
Definition uniforms_doctests_run : bool := Eval vm_compute in
  (forallb (fun p => PrimFloat.eqb (convolution_of_two_uniforms (fst p) 0 1 0 2) (snd p))
    [(-2, 0); (-1.5, 0); (-1.49, 0.0050000000000000044); (-0.51, 0.495); (-0.49, 0.5); (0, 0.5); (0.49, 0.5);
     (0.51, 0.495); (1.49, 0.0050000000000000044); (1.5, 0); (2, 0)]).
Example uniforms_doctests : uniforms_doctests_run = true.
Proof. reflexivity. Qed.
