(** Validation of OtherModels.v (the early likelihood model, with and without
    missing votes, and the least squares model) against the numbers in
    /repo/test/subjective_model_test.py. *)
From Coq Require Import String Ascii.
From Coq Require Import List ZArith Bool Floats.
From Verif Require Import PyBase Num NumFloat NumPy Dataset Mocked Preproc Mos AP Mle OtherModels Validate ValidateData ValidateMos ValidateAp.
Import ListNotations.
Set Warnings "-inexact-float".
Local Open Scope float_scope.

Definition leg_of (rd : res (reader float)) (k : kwargs float) (force log : bool) : res (otherres float) :=
  do rd <- rd; leg_run_modeling rd k (LegOpts (Some force) (Some log)).
Definition sum_var (o : option (list float)) : list float := match o with Some l => [fsum l; fvar l] | None => [] end.
Definition leg_estimates (r : otherres float) : list float :=
  sum_var (or_bias r) ++ sum_var (or_incons r) ++ sum_var (Some (or_quality r)).
Definition zscored : kwargs float := KW false true false false None false None.

(** MissingDataRawDatasetReader with np.random.seed(0); the draws are given by
    whether they fall below the missing probability. *)
Definition missing (mask : list string) : res (reader float) :=
  do a <- missing_3darray nflx (Some 0.5) (fun e s _ =>
    match String.get s (nth e mask EmptyString) with Some "1"%char => 0.25 | _ => 0.75 end);
  Ok (Reader nflx (ds_dis nflx) (Ok (freeze a))).

(** subjective_model_test.py:547-560 *)
Definition leg_nflx_run : bool := Eval vm_compute in
  (ran (leg_of (frozen_reader nflx) no_kwargs false false) (fun r => agree_with (leg_estimates r)
  [-0.090840910829083799; 0.089032585621095089; 15.681766163430936; 0.012565584832977776; 280.31447815213642; 1.4355485462027884])).
Example leg_nflx : leg_nflx_run = true.
Proof. reflexivity. Qed.
(** subjective_model_test.py:251-263 *)
Definition leg_zscored_run : bool := Eval vm_compute in
  (ran (leg_of (frozen_reader nflx) zscored false false) (fun r => agree_with (leg_estimates r)
  [0; 0; 11.568205661696393; 0.0079989301785523791; 0; 0.80942484781493518])).
Example leg_zscored : leg_zscored_run = true.
Proof. reflexivity. Qed.
(** subjective_model_test.py:562-596 *)
Definition leg_missing10_run : bool := Eval vm_compute in
  (ran (leg_of (missing seed0_missing10) no_kwargs false false) (fun r => agree_with (leg_estimates r)
  [-0.18504017984241944; 0.087350553292201705; 15.520738471447299; 0.010940587327083341; 279.94975274863879; 1.4325574378911554])).
Example leg_missing10 : leg_missing10_run = true.
Proof. reflexivity. Qed.
Definition leg_missing50_run : bool := Eval vm_compute in
  (ran (leg_of (missing seed0_missing50) no_kwargs false false) (fun r => agree_with (leg_estimates r)
  [0.057731868199093525; 0.081341845650928557; 14.996238224489693; 0.013666025579465165; 280.67100837103203; 1.4637917512768972])).
Example leg_missing50 : leg_missing50_run = true.
Proof. reflexivity. Qed.
(** subjective_model_test.py:620-631 *)
Definition leg_corrupted_run : bool := Eval vm_compute in
  (ran (leg_of corrupted no_kwargs false false) (fun r =>
  agree6 [(fmean (or_quality r), 3.5573073781669944); (fvar (or_quality r), 1.3559834438740614)])).
Example leg_corrupted : leg_corrupted_run = true.
Proof. reflexivity. Qed.
(** subjective_model_test.py:1270-1282: the partial dataset with use_log *)
Definition leg_partial_log_run : bool := Eval vm_compute in
  (ran (leg_of (frozen_reader nflx_partial) no_kwargs false true) (fun r => agree_with (leg_estimates r)
  [-0.02907696993595069; 0.095605013092265725; 15.810305727732661; 0.014607671851733216; 177.90318944102833; 1.4830610455789057])).
Example leg_partial_log : leg_partial_log_run = true.
Proof. reflexivity. Qed.
(** subjective_model_test.py:1284-1308 *)
Definition leg_dict_run : bool := Eval vm_compute in
  (ran (leg_of (raw_reader dataset_os_as_dict) no_kwargs true false) (fun r => agree_with (leg_estimates r)
  [0; 0.17283950617283952; 2.8802122896041467; 0.4856715281793693; 7.333333333333334; 0.6666666530952383]
  && near6 (vat (or_quality r) 0) 2.444444460976023
  && match or_observers r with Some _ => true | None => false end)).
Example leg_dict : leg_dict_run = true.
Proof. reflexivity. Qed.
