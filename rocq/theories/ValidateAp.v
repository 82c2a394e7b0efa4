(** Validation of AP.v against the numbers in /repo/test/subjective_model_test.py
    and routine_test.py.  chi2.ppf is an argument of the model; it only enters the
    confidence intervals of the inconsistencies, which are not compared. *)
From Coq Require Import String.
From Coq Require Import List ZArith Bool Floats.
From Verif Require Import PyBase Num NumFloat NumPy Dataset Mocked Preproc Mos AP Perf Validate ValidateData ValidateMos.
Import ListNotations.
Set Warnings "-inexact-float".
Local Open Scope float_scope.

Definition no_ppf (_ _ : float) : float := nan.
Definition frozen_reader (ds : dataset float string) : res (reader float) :=
  do rd <- raw_reader ds; do a <- rd_arr rd; Ok (Reader ds (ds_dis ds) (Ok (freeze a))).
Definition ap_of (c : apclass) (rd : res (reader float)) (force : option bool) : res (apres float) :=
  do rd <- rd; ap_run_modeling no_ppf c rd no_kwargs force.
Definition ap_estimates (r : apres float) : list float :=
  [fmean (ap_quality r); fvar (ap_quality r); fmean (ap_bias r); fvar (ap_bias r); fmean (ap_incons r); fvar (ap_incons r)].
Definition ap_fit (r : apres float) : list float :=
  [ap_dof r; ap_ll r; fstd3 (ap_raw r); fstd3 (ap_recon r); ap_aic r; ap_bic r].
Definition ap_errors (r : apres float) : list float :=
  [fsum (ap_bias_std r); fsum (ap_incons_std r); fsum (ap_quality_std r)].

(** subjective_model_test.py:1000-1058: five subjects corrupted, seed 0 *)
Definition ap_corrupted_run : bool := Eval vm_compute in
  (ran (ap_of Projection corrupted None) (fun r =>
  agree_with (ap_estimates r)
    [3.5447906523855877; 1.3559834679453553; 0; 0.08903258562151985; 0.8091663380211014; 0.21269010120806528]
  && agree_with (ap_errors r) [2.3669964674034123; 1.6737192530463552; 9.592833401286343]
  && match ap_observers r with None => true | _ => false end)).
Example ap_corrupted : ap_corrupted_run = true.
Proof. reflexivity. Qed.
Definition ap_corrupted_nonzero_bias_run : bool := Eval vm_compute in
  (ran (ap_of Projection corrupted (Some false)) (fun r =>
  agree_with (ap_estimates r)
    [3.5447906523855877; 1.3559834679453553; 0; 0.08903258562151985; 0.8091663380211014; 0.21269010120806528]
  && agree_with (ap_fit r)
    [0.06377799415774099; -1.084797535188502; 1.3654128030298962; 1.2020882040879586; 2.297151058692486; 2.6560645519514896]
  && agree_with (ap_errors r) [2.3669964674034123; 1.6737192530463552; 9.592833401286343])).
Example ap_corrupted_nonzero_bias : ap_corrupted_nonzero_bias_run = true.
Proof. reflexivity. Qed.

(** subjective_model_test.py:1109-1138: the second solver *)
Definition ap2_corrupted_run : bool := Eval vm_compute in
  (ran (ap_of Projection2 corrupted (Some false)) (fun r =>
  agree_with (ap_estimates r)
    [3.5447906523855877; 1.3559834679453553; 0; 0.08903258562151985; 0.8091663380211014; 0.21269010120806528]
  && agree_with (ap_fit r)
    [0.06377799415774099; -1.084797535188502; 1.3654128030298962; 1.2020882040879586; 2.297151058692486; 2.6560645519514896]
  && agree_with (ap_errors r) [2.3669964674034123; 1.6737192530463552; 13.711486766043402])).
Example ap2_corrupted : ap2_corrupted_run = true.
Proof. reflexivity. Qed.

(** subjective_model_test.py:1346-1370: votes per observer name *)
Definition ap_dict_run : bool := Eval vm_compute in
  (ran (ap_of Projection (raw_reader dataset_os_as_dict) None) (fun r =>
  agree6 [(vat (ap_quality r) 0, 2.444444460976023); (fsum (ap_bias r), 0); (fvar (ap_bias r), 0.17283950617283952);
          (fsum (ap_incons r), 2.8802122896041467); (fvar (ap_incons r), 0.4856715281793693);
          (fsum (ap_quality r), 7.333333333333334); (fvar (ap_quality r), 0.6666666530952383);
          (vat (ap_quality r) 1, 1.44444445515873)]
  && match ap_observers r with Some o => forallb2 String.eqb o ["Jerry"; "Pinokio"; "Tom"]%string | None => false end)).
Example ap_dict : ap_dict_run = true.
Proof. reflexivity. Qed.

(** routine_test.py:35-55, 102-120 *)
Definition ap_nflx_run : bool := Eval vm_compute in
  (ran (ap_of Projection (frozen_reader nflx) None) (fun r =>
  let raw := flat3 (ap_raw r) in let rec := flat3 (ap_recon r) in
  let lstsq (_ : list (float * float)) (_ : list float) : res (float * float) := Err LinAlgError in
  agree6 [(vat (ap_quality r) 0, 4.918072566018977); (vat (ap_quality r) 77, 4.258802804871559);
          (vat (ap_incons r) 0, 0.5823933134761798); (vat (ap_incons_std r) 0, 0.046332724296959504);
          (vat (ap_scores_mean r) 0, 3.3544303797468356); (vat (ap_scores_std r) 0, 1.4323387503610767)]
  && ran (reconstruction_stat lstsq PCC raw rec) (fun x => near4 x 0.8934493186953418)
  && ran (reconstruction_stat lstsq SRCC raw rec) (fun x => near4 x 0.8698396941667169)
  && ran (reconstruction_stat lstsq RMSE raw rec) (fun x => near4 x 0.6134731448525833))).
Example ap_nflx : ap_nflx_run = true.
Proof. reflexivity. Qed.
