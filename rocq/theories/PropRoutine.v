(** Formatted output: C60, C61, C76. *)
From Coq Require Import String.
From Coq Require Import List ZArith Bool Arith Lia.
From Verif Require Import PyBase Num ExtReal NumPy Dataset Preproc Mos AP Mle PairedComp PcDataset Routine Report SpecMos Routine2Proofs Routine5Proofs ReportProofs Report3Proofs
  MosWitness MleWitness BtWitness RoutineWitness SpecRoutine.
Import ListNotations.
Local Open Scope list_scope.
Local Open Scope string_scope.

(** C60: exactly the results that fit and agree on names are formatted. *)
Theorem C60_accepted : forall V refs types (rs : list (mresult V)),
  (exists out, format_output refs types rs = Ok out) <-> length types = length rs /\ Forall (fits refs) rs /\ agree refs rs.
Proof. intros V refs types rs. exact (proj1 (format_shape refs types rs)). Qed.
Print Assumptions C60_accepted.
(** Anything else is rejected, with an assertion as long as no column is None
    and every reference has a content_name. *)
Theorem C60_rejected : forall V refs types (rs : list (mresult V)), all_named refs -> Forall no_none rs ->
  ~ (length types = length rs /\ Forall (fits refs) rs /\ agree refs rs) -> format_output refs types rs = Err AssertionError.
Proof. exact format_rejected. Qed.
Print Assumptions C60_rejected.
(** Every value of the output is one result's, and every one is there. *)
Theorem C60_values : forall V refs types (rs : list (mresult V)) out, NoDup types -> format_output refs types rs = Ok out -> forall p i t key c,
  (exists e, nth_error (part_of out p) i = Some e /\ reported e t key c) <->
  exists j r, nth_error types j = Some t /\ nth_error rs j = Some r /\ says r p i key c.
Proof. intros V refs. exact (format_values refs). Qed.
Print Assumptions C60_values.
(** Names, in order. *)
Theorem C60_names : forall V refs types (rs : list (mresult V)) out, format_output refs types rs = Ok out -> forall p,
  (forall i n, (exists e, nth_error (part_of out p) i = Some e /\ en_name e = Some n) <-> exists r, In r rs /\ names refs r p i n) /\
  (forall e, In e (part_of out p) -> en_name e <> None).
Proof. intros V refs. exact (format_names refs). Qed.
Print Assumptions C60_names.
Theorem C60_stats : forall V refs types (rs : list (mresult V)) out, NoDup types -> format_output refs types rs = Ok out -> forall t key x,
  (exists m, dget String.eqb (f_stats out) t = Some m /\ dget String.eqb m key = Some x) <->
  exists j r, nth_error types j = Some t /\ nth_error rs j = Some r /\ ((key = "aic" /\ r_aic r = Some x) \/ (key = "bic" /\ r_bic r = Some x)).
Proof. intros V refs. exact (format_stats refs). Qed.
Print Assumptions C60_stats.

Example C60_nonvacuous : exists out, format_output ex_refs ["MOS"; "MLE"] [ex_a; ex_b] = Ok out /\ NoDup ["MOS"; "MLE"] /\ all_named ex_refs /\ no_none ex_bad /\
  ~ (length ["X"] = length [ex_bad] /\ Forall (fits ex_refs) [ex_bad] /\ agree ex_refs [ex_bad]) /\
  (exists e, nth_error (part_of out Videos) 1 = Some e /\ en_name e = Some "v1" /\ reported e "MOS" "quality_score" (CVal 2%Z) /\
     reported e "MOS" "quality_score_ci95" (CTuple [6; 8]%Z) /\ reported e "MLE" "quality_score" (CVal 20%Z)) /\
  (exists e, nth_error (part_of out Observers) 0 = Some e /\ en_name e = Some "A" /\ reported e "MLE" "observer_bias" (CVal 30%Z)) /\
  (exists e, nth_error (part_of out Contents) 0 = Some e /\ en_name e = Some "park" /\ reported e "MLE" "content_ambiguity" (CVal 40%Z)).
Proof.
  eexists. split; [vm_compute; reflexivity|]. split; [repeat constructor; cbn; intuition discriminate|].
  split; [intros rv [<-|[]]; eexists; reflexivity|]. split; [unfold no_none, col_list, ci_list; cbn; repeat split; discriminate|].
  split; [intros (_ & F & _); inversion F as [|? ? ((q & ns & Q & NS & L & _) & _) _]; injection Q as <-; injection NS as <-; discriminate|].
  split; [|split]; (eexists; split; [reflexivity|]; split; [reflexivity|]; repeat split; eexists; split; reflexivity).
Qed.

(** C61: results of the maximum likelihood models, any number at once. *)
Theorem C61_formatted_partial : forall T (N : Num T) (ds : dataset T (string * Z)) a types rs, pc_reader_3darray ds = Ok a -> length types = length rs ->
  (forall r, In r rs -> exists obs,
     (exists pinv fuel b, bt_run pinv fuel a = Ok b /\ r = named (ds_dis ds) (bt_report obs b)) \/
     (exists cdf slsqp pinv s z b, keeps_length slsqp /\ th_run cdf slsqp pinv s z a = Ok b /\ r = named (ds_dis ds) (th_report obs b))) ->
  exists out, format_output (ds_refs ds) types rs = Ok out.
Proof. exact @pc_formats. Qed.
Print Assumptions C61_formatted_partial.
(** No result of the Newton-Raphson model can be formatted. *)
Theorem C61_newton : forall T (N : Num T) (ds : dataset T (string * Z)) a pinv fuel z q obs t, pc_reader_3darray ds = Ok a -> nr_run pinv fuel z a = Ok q ->
  format_output (ds_refs ds) [t] [named (ds_dis ds) (nr_report obs q)] = Err TypeError.
Proof. exact @nr_formats. Qed.
Print Assumptions C61_newton.
(** C61 is false of the Newton-Raphson model. *)
Theorem C61_refuted : exists (ds : dataset ef (string * Z)) a pinv q, pc_reader_3darray ds = Ok a /\ nr_run pinv 1 false a = Ok q /\
  forall obs t, format_output (ds_refs ds) [t] [named (ds_dis ds) (nr_report obs q)] = Err TypeError.
Proof. exact wk_refuted. Qed.
Print Assumptions C61_refuted.
Example C61_nonvacuous : exists a b h q, pc_reader_3darray wk_ds = Ok a /\ bt_run same 2 a = Ok b /\ keeps_length keep /\ th_run ncdf keep same true false a = Ok h /\
  nr_run still 1 false a = Ok q /\
  exists out, format_output (ds_refs wk_ds) ["BT_MLE"; "THURSTONE_MLE"] [named (ds_dis wk_ds) (bt_report None b); named (ds_dis wk_ds) (th_report None h)] = Ok out.
Proof.
  destruct wk_reads as (a & R & E & S & D & A). destruct (wk_bt a E S D A) as (b & B). destruct (wk_th a E S) as (h & H). destruct (wk_nr a E S D A) as (q & Q).
  assert (K : keeps_length keep) by (intros f v; reflexivity).
  exists a, b, h, q. repeat (split; [assumption|]). apply (C61_formatted_partial _ _ _ a); [exact R|reflexivity|].
  intros r [<-|[<-|[]]]; exists None; [left; exists same, 2, b|right; exists ncdf, keep, same, true, false, h]; auto.
Qed.

(** C76: the rating models.  MOS and its relatives, with any options. *)
Theorem C76_mos : forall T (N : Num T) (ds : dataset T string) rd c k m t, raw_reader ds = Ok rd -> run_modeling c rd k = Ok m ->
  exists out, format_output (ds_refs ds) [t] [named (rd_dvs rd) (mos_report m)] = Ok out.
Proof. exact @mos_formats. Qed.
Print Assumptions C76_mos.
(** The projection solver: exactly when as many observers are named as solved
    for; so always without subject rejection. *)
Theorem C76_projection_partial : forall T (N : Num T) chi (ds : dataset T string) rd c k f m t, raw_reader ds = Ok rd -> ap_run_modeling chi c rd k f = Ok m ->
  ((exists out, format_output (ds_refs ds) [t] [named (rd_dvs rd) (ap_report m)] = Ok out) <-> forall o, ap_observers m = Some o -> length o = length (ap_bias m)) /\
  (kw_rej k = false -> exists out, format_output (ds_refs ds) [t] [named (rd_dvs rd) (ap_report m)] = Ok out).
Proof. exact @ap_formats. Qed.
Print Assumptions C76_projection_partial.
(** Maximum likelihood: the content-oblivious classes always; the others when
    the contents are named and numbered without gaps. *)
Theorem C76_likelihood_partial : forall T (N : Num T) chi (ds : dataset T string) rd c k o m t, raw_reader ds = Ok rd -> mle_run_modeling chi c rd k o = Ok m ->
  (exists out, format_output (ds_refs ds) [t] [named (rd_dvs rd) (mle_report m)] = Ok out) <->
  c = MLE_CO \/ c = DMOS_MLE_CO \/ (all_named (ds_refs ds) /\ no_gaps (ds_refs ds)).
Proof. exact @mle_formats. Qed.
Print Assumptions C76_likelihood_partial.
(** C76 is false after a rejection among named observers. *)
Theorem C76_rejection_refuted : forall chi c, exists ds rd k m, raw_reader ds = Ok rd /\ ap_run_modeling chi c rd k None = Ok m /\ all_named (ds_refs ds) /\
  forall t, format_output (ds_refs ds) [t] [named (rd_dvs rd) (ap_report m)] = Err AssertionError.
Proof. exact wj_refuted. Qed.
Print Assumptions C76_rejection_refuted.
(** C76 is false with a gap in the content ids. *)
Theorem C76_gap_refuted : forall chi, exists ds rd m, raw_reader ds = Ok rd /\ mle_run_modeling chi MLE_SO rd no_options (MleOpts None None None None) = Ok m /\ all_named (ds_refs ds) /\
  forall t, format_output (ds_refs ds) [t] [named (rd_dvs rd) (mle_report m)] = Err AssertionError.
Proof. exact wr_refuted. Qed.
Print Assumptions C76_gap_refuted.
Example C76_nonvacuous : forall chi, exists rd mm ma ml, raw_reader (wr_ds 0) = Ok rd /\ run_modeling MOS rd no_options = Ok mm /\
  ap_run_modeling chi Projection rd no_options None = Ok ma /\ kw_rej (@no_options) = false /\
  mle_run_modeling chi MLE_SO rd no_options (MleOpts None None None None) = Ok ml /\ all_named (ds_refs (wr_ds 0)) /\ no_gaps (ds_refs (wr_ds 0)).
Proof. exact wr_examples. Qed.
