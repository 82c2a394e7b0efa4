(** Validation of Preproc.v, Mos.v and the corrupting reader of Mocked.v against
    the numbers in /repo/test/subjective_model_test.py and routine_test.py. *)
From Coq Require Import String.
From Coq Require Import List ZArith Bool Floats.
From Verif Require Import PyBase Num NumFloat NumPy Dataset Mocked Preproc Mos Perf Validate ValidateData.
Import ListNotations.
Set Warnings "-inexact-float".
Local Open Scope float_scope.

Definition mos_of (c : mosclass) (ds : dataset float string) (k : kwargs float) : res (mosres float) :=
  do rd <- raw_reader ds; run_modeling c rd k.
Definition normalize : kwargs float := KW false false false false None true None.
Definition transform (p1 p0 : float) : kwargs float := KW false false false false None false (Some (None, Some p1, Some p0)).

(** subjective_model_test.py:39-61, routine_test.py:46-52 *)
Definition mos_nflx_run : bool := Eval vm_compute in
  (ran (mos_of MOS nflx no_kwargs) (fun r =>
  agree6 [(vat (mr_quality r) 0, 4.884615384615385); (vat (mr_quality r) 10, 2.0769230769230771);
          (vat (mr_quality r) 77, 4.230769230769231);
          (fmean (mr_quality r), 3.544790652385589); (fmean (mr_std r), 0.12986637295658307);
          (fmean (mr_ambiguity r), 0.6621911698651353);
          (mr_dof r, 0.07692307692307693); (mr_ll r, -0.9384709649191117);
          (fstd3 (mr_raw r), 1.3654128030298962); (fstd3 (mr_recon r), 1.183732241710059);
          (mr_aic r, 2.0307880836843775); (mr_bic r, 2.4636761137219545)]
  && match mr_observers r with None => true | Some _ => false end)).
Example mos_nflx : mos_nflx_run = true.
Proof. reflexivity. Qed.

(** routine_test.py:50-52: reconstruction_stats *)
Definition mos_nflx_reconstruction_run : bool := Eval vm_compute in
  (ran (mos_of MOS nflx no_kwargs) (fun r =>
  let raw := flat3 (mr_raw r) in let rec := flat3 (mr_recon r) in
  let lstsq (_ : list (float * float)) (_ : list float) : res (float * float) := Err LinAlgError in
  ran (reconstruction_stat lstsq PCC raw rec) (fun x => near4 x 0.8669409273761887)
  && ran (reconstruction_stat lstsq SRCC raw rec) (fun x => near4 x 0.8398755052867866)
  && ran (reconstruction_stat lstsq RMSE raw rec) (fun x => near4 x 0.6805366284146919))).
Example mos_nflx_reconstruction : mos_nflx_reconstruction_run = true.
Proof. reflexivity. Qed.

(** subjective_model_test.py:114-132 *)
Definition mos_dict_run : bool := Eval vm_compute in
  (ran (mos_of MOS dataset_os_as_dict no_kwargs) (fun r =>
  agree6 [(vat (mr_quality r) 0, 2.6666666666666665); (vat (mr_std r) 0, 0.881917103688197);
          (fsum (mr_quality r), 7.333333333333332); (fvar (mr_quality r), 0.09876543209876538)]
  && match mr_observers r with Some o => forallb2 String.eqb o ["Jerry"; "Pinokio"; "Tom"]%string | None => false end)).
Example mos_dict : mos_dict_run = true.
Proof. reflexivity. Qed.

(** subjective_model_test.py:169-191 *)
Definition mos_normalize_run : bool := Eval vm_compute in
  (ran (mos_of MOS nflx normalize) (fun r =>
  agree6 [(vat (mr_quality r) 0, 1.1318646945818083); (vat (mr_quality r) 10, -1.2400334499143002); (fmean (mr_quality r), 0)])).
Example mos_normalize : mos_normalize_run = true.
Proof. reflexivity. Qed.
Definition mos_transform_run : bool := Eval vm_compute in
  (ran (mos_of MOS nflx (transform 10 1)) (fun r =>
  agree6 [(vat (mr_quality r) 0, 49.84615384615385); (vat (mr_quality r) 10, 21.769230769230771); (fmean (mr_quality r), 36.44790652385589)])).
Example mos_transform : mos_transform_run = true.
Proof. reflexivity. Qed.

(** subjective_model_test.py:203-224 *)
Definition dmos_nflx_run : bool := Eval vm_compute in
  (ran (mos_of DMOS nflx no_kwargs) (fun r =>
  agree6 [(vat (mr_quality r) 0, 5); (vat (mr_quality r) 10, 2.1923076923076921);
          (fmean (mr_quality r), 3.7731256085686473); (fmean (mr_std r), 0.12986637295658307)])).
Example dmos_nflx : dmos_nflx_run = true.
Proof. reflexivity. Qed.
Definition dmos_normalize_run : bool := Eval vm_compute in
  (ran (mos_of DMOS nflx normalize) (fun r =>
  agree6 [(vat (mr_quality r) 0, 1.0440613892053001); (vat (mr_quality r) 10, -1.3452648137895296); (fmean (mr_quality r), 0)])).
Example dmos_normalize : dmos_normalize_run = true.
Proof. reflexivity. Qed.

(** subjective_model_test.py:599-613 *)
Definition live_of (k : kwargs float) : res (list float) := do rd <- raw_reader nflx; do q <- live_dmos rd k; Ok (postprocess k q).
Definition live_nflx_run : bool := Eval vm_compute in
  (ran (live_of no_kwargs) (fun q =>
  agree6 [(vat q 0, 65.307711974116913); (vat q 10, 30.204773267864258); (fmean q, 50)])).
Example live_nflx : live_nflx_run = true.
Proof. reflexivity. Qed.
Definition live_normalize_run : bool := Eval vm_compute in
  (ran (live_of normalize) (fun q =>
  agree6 [(vat q 0, 1.0392964273048528); (vat q 10, -1.3439701802061783); (fmean q, 0)])).
Example live_normalize : live_normalize_run = true.
Proof. reflexivity. Qed.

(** The partial dataset: subjective_model_test.py:1181-1262 *)
Definition mos_partial_run : bool := Eval vm_compute in
  (ran (mos_of MOS nflx_partial no_kwargs) (fun r =>
  agree6 [(vat (mr_quality r) 0, 4.884615384615385); (vat (mr_quality r) 10, 2.8076923076923075);
          (fmean (mr_quality r), 3.4871794871794877); (vat (mr_std r) 0, 0.06389710663783135); (fmean (mr_std r), 0.13125250408357622)])).
Example mos_partial : mos_partial_run = true.
Proof. reflexivity. Qed.
Definition dmos_partial_run : bool := Eval vm_compute in
  (ran (mos_of DMOS nflx_partial no_kwargs) (fun r =>
  agree6 [(vat (mr_quality r) 0, 5); (vat (mr_quality r) 10, 2.9230769230769225);
          (fmean (mr_quality r), 3.7473604826546003); (fmean (mr_std r), 0.13125250408357622)])).
Example dmos_partial : dmos_partial_run = true.
Proof. reflexivity. Qed.

(** Four outliers: routine_test.py:201-210 *)
Definition sr_mos_outliers_run : bool := Eval vm_compute in
  (ran (mos_of SR_MOS nflx_outliers no_kwargs) (fun r =>
  agree6 [(vat (mr_quality r) 0, 1.3333333333333333); (vat (mr_quality r) 77, 4.555555555555555)])).
Example sr_mos_outliers : sr_mos_outliers_run = true.
Proof. reflexivity. Qed.
Definition br_sr_mos_nflx_run : bool := Eval vm_compute in
  (ran (mos_of BR_SR_MOS nflx no_kwargs) (fun r => near6 (mr_aic r) 1.863316331686836)).
Example br_sr_mos_nflx : br_sr_mos_nflx_run = true.
Proof. reflexivity. Qed.

(** CorruptSubjectRawDatasetReader with np.random.seed(0), subjects 0-4:
    subjective_model_test.py:633-677, 747-970 *)
Definition seed0 : corrupt_rng float :=
  CorruptRng (fun _ _ => 0) (fun k _ i => nth i (nth k seed0_shuffles []) O) (fun _ => 0).
Definition corrupted : res (reader float) :=
  do a <- corrupt_subject_3darray nflx (Some [0; 1; 2; 3; 4]%Z) None None seed0;
  Ok (Reader nflx (ds_dis nflx) (Ok (freeze a))).
Definition corrupted_mos (c : mosclass) (k : kwargs float) : res (mosres float) :=
  do rd <- corrupted; run_modeling c rd k.
Definition all_stats (r : mosres float) : list float :=
  [fmean (mr_quality r); fvar (mr_quality r); mr_dof r; mr_ll r; fstd3 (mr_raw r); fstd3 (mr_recon r); mr_aic r; mr_bic r].
Definition bias_stats (r : mosres float) : list float :=
  match mr_bias r with Some b => [fmean b; fvar b] | None => [] end.
Definition agree_with (l e : list float) : bool := Nat.eqb (length l) (length e) && agree6 (combine l e).

Definition corrupted_plain_run : bool := Eval vm_compute in
  (ran (corrupted_mos MOS no_kwargs) (fun r =>
  agree6 [(fmean (mr_quality r), 3.5447906523855899); (fvar (mr_quality r), 0.95893305294535369)])).
Example corrupted_plain : corrupted_plain_run = true.
Proof. reflexivity. Qed.
Definition corrupted_sr_run : bool := Eval vm_compute in
  (ran (corrupted_mos SR_MOS no_kwargs) (fun r => agree_with (all_stats r)
  [3.5611814345991566; 1.1049505732699529; 0.07692307692307693; -1.2051956998810835; 1.3565171169581582; 1.0511662919205282; 2.564237553608321; 2.9971255836458983])).
Example corrupted_sr : corrupted_sr_run = true.
Proof. reflexivity. Qed.
Definition corrupted_sr_pcc_run : bool := Eval vm_compute in
  (ran (corrupted_mos SR_MOS_PCC no_kwargs) (fun r => agree_with (all_stats r)
  [3.5322483423749245; 1.403470793861528; 0.07692307692307693; -0.9355458920134561; 1.3636600914070514; 1.1846817268201313; 2.02493793787306; 2.457825967910643])).
Example corrupted_sr_pcc : corrupted_sr_pcc_run = true.
Proof. reflexivity. Qed.
Definition corrupted_sr_srcc_run : bool := Eval vm_compute in
  (ran (corrupted_mos SR_MOS_SRCC no_kwargs) (fun r => agree_with (all_stats r)
  [3.5322483423749245; 1.403470793861528; 0.07692307692307693; -0.9355458920134561; 1.3636600914070514; 1.1846817268201313; 2.02493793787306; 2.457825967910643])).
Example corrupted_sr_srcc : corrupted_sr_srcc_run = true.
Proof. reflexivity. Qed.
Definition corrupted_zs_run : bool := Eval vm_compute in
  (ran (corrupted_mos ZS_MOS no_kwargs) (fun r => agree_with (all_stats r)
  [0; 0.5405866214633748; 0.07692307692307693; -0.9696021743118809; 0.99365072945774; 0.7352459598415858; 2.0930505024699158; 2.525938532507493])).
Example corrupted_zs : corrupted_zs_run = true.
Proof. reflexivity. Qed.
Definition corrupted_zs_sr_run : bool := Eval vm_compute in
  (ran (corrupted_mos ZS_SR_MOS no_kwargs) (fun r =>
  agree6 [(fmean (mr_quality r), 0); (fvar (mr_quality r), 0.66670826882879042)])).
Example corrupted_zs_sr : corrupted_zs_sr_run = true.
Proof. reflexivity. Qed.
Definition corrupted_br_run : bool := Eval vm_compute in
  (ran (corrupted_mos BR_MOS no_kwargs) (fun r => agree_with (all_stats r ++ bias_stats r)
  [3.5447906523855885; 0.9589330529453537; 0.08958130477117819; -1.2761533126002955; 1.332411174171261; 0.9792512716077287; 2.7314692347429474; 3.2355920039006323; 0; 0.08903258562151982])).
Example corrupted_br : corrupted_br_run = true.
Proof. reflexivity. Qed.
Definition corrupted_br_sr_run : bool := Eval vm_compute in
  (ran (corrupted_mos BR_SR_MOS no_kwargs) (fun r => agree_with (all_stats r ++ bias_stats r)
  [3.5447906523855885; 1.09500013352561; 0.08958130477117819; -1.1737836830835549; 1.3307052960550632; 1.04642254062382; 2.526729975709466; 3.030852744867151; 0; 0.08903258562151982])).
Example corrupted_br_sr : corrupted_br_sr_run = true.
Proof. reflexivity. Qed.
Definition corrupted_br_sr_pcc_run : bool := Eval vm_compute in
  (ran (corrupted_mos BR_SR_MOS_PCC no_kwargs) (fun r => agree_with (all_stats r ++ bias_stats r)
  [3.5447906523855885; 1.403470793861527; 0.08958130477117819; -0.8483987293047435; 1.3269967925381838; 1.18468172682013088; 1.8759600681518434; 2.380082837309528; 0; 0.08903258562151982])).
Example corrupted_br_sr_pcc : corrupted_br_sr_pcc_run = true.
Proof. reflexivity. Qed.
Definition corrupted_br_sr_srcc_run : bool := Eval vm_compute in
  (ran (corrupted_mos BR_SR_MOS_SRCC no_kwargs) (fun r => agree_with (all_stats r ++ bias_stats r)
  [3.5447906523855885; 1.403470793861527; 0.08958130477117819; -0.8483987293047435; 1.3269967925381838; 1.18468172682013088; 1.8759600681518434; 2.380082837309528; 0; 0.08903258562151982])).
Example corrupted_br_sr_srcc : corrupted_br_sr_srcc_run = true.
Proof. reflexivity. Qed.
Definition corrupted_sr_dmos_run : bool := Eval vm_compute in
  (ran (corrupted_mos SR_DMOS no_kwargs) (fun r =>
  agree6 [(fmean (mr_quality r), 4.0246673158065542); (fvar (mr_quality r), 1.0932580358187849)])).
Example corrupted_sr_dmos : corrupted_sr_dmos_run = true.
Proof. reflexivity. Qed.
Definition corrupted_zs_sr_dmos_run : bool := Eval vm_compute in
  (ran (corrupted_mos ZS_SR_DMOS no_kwargs) (fun r =>
  agree6 [(fmean (mr_quality r), 0); (fvar (mr_quality r), 0.66405245792414114)])).
Example corrupted_zs_sr_dmos : corrupted_zs_sr_dmos_run = true.
Proof. reflexivity. Qed.
