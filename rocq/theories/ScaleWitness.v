(** Concrete datasets for claim C141. *)
From Coq Require Import String.
From Coq Require Import List ZArith Bool Arith Reals Lra Lia.
From Verif Require Import PyBase Num ExtReal NumPy Dataset Preproc Mos AP Mle SpecMos SpecAp SpecMle BaseProofs ExtRealProofs
  ArrayProofs StepsProofs MosProofs MosWitness ApProofs Ap2Proofs ApWitness MleProofs Mle2Proofs Mle3Proofs Mle4Proofs Mle5Proofs Mle6Proofs Mle7Proofs Eval MleWitness
  SpecScale ScaleProofs Scale2Proofs Scale3Proofs Scale4Proofs.
Import ListNotations.
Local Open Scope R_scope.
Local Open Scope string_scope.

(** [wf_ds] on the scale 2 * x + 1. *)
Definition wf2_ds := w_ds [ w_dv 0 0 "v0" (OSeq false [w_vote 9; w_vote 5]); w_dv 0 1 "v1" (OSeq false [w_vote 3; w_vote 7]) ].
Definition wf2_o : mleopts ef := MleOpts None None (Some (Fin (2 / 100000000))) None.
Lemma wf2_tr : transformed (rescale 2 1) (w_arr wf_ds) (w_arr wf2_ds).
Proof. repeat split. cells 2%nat 2%nat 1%nat; cbn; f_equal; lra. Qed.
Lemma wf2_test : same_test (w_reader wf_ds) (w_reader wf2_ds).
Proof. repeat split. Qed.
Lemma wf2_opts : same_options 2 (MleOpts None None None None) wf2_o.
Proof. repeat split. cbn. rewrite Rabs_pos_eq by lra. unfold times. cbn. f_equal. lra. Qed.
(** [wf_ds] with all votes doubled. *)
Definition wf3_ds := w_ds [ w_dv 0 0 "v0" (OSeq false [w_vote 8; w_vote 4]); w_dv 0 1 "v1" (OSeq false [w_vote 2; w_vote 6]) ].
Lemma wf3_tr : transformed (rescale 2 0) (w_arr wf_ds) (w_arr wf3_ds).
Proof. repeat split. cells 2%nat 2%nat 1%nat; cbn; f_equal; lra. Qed.

(** Two contents and three subjects who agree on the first video; the second
    subject is exactly at the means. *)
Definition wh_ds := w_ds [ w_dv 0 0 "v0" (OSeq false [w_vote 0; w_vote 0; w_vote 0]); w_dv 1 1 "v1" (OSeq false [w_vote (-1); w_vote 0; w_vote 1]) ].
Definition wh_q : list ef := [Fin 0; Fin 0].
Lemma wh_reads : raw_reader wh_ds = Ok (w_reader wh_ds) /\ rd_arr (w_reader wh_ds) = Ok (w_arr wh_ds) /\ exists o, attach_observers (w_reader wh_ds) = Ok o.
Proof. repeat split. eexists. reflexivity. Qed.
Lemma wh_finite : finite_votes (w_arr wh_ds). Proof. cells 2%nat 3%nat 1%nat; exact I. Qed.
Lemma wh_mos : exists mm, run_modeling MOS (w_reader wh_ds) no_options = Ok mm /\ mr_quality mm = wh_q.
Proof.
  destruct (mos_total _ _ _ (proj1 wh_reads) (proj1 (proj2 wh_reads))) as (mm & H). exists mm. split; [exact H|].
  unfold run_modeling, run_kwargs, mos_run, preprocess in H. cbn [bind] in H. rewrite (proj1 (proj2 wh_reads)) in H. cbn [bind] in H.
  destruct wh_reads as (_ & _ & o & Ho). unfold no_options in H. cbn [kw_dscore kw_zscore kw_bias kw_rej bind] in H. rewrite Ho in H. cbn [bind] in H. apply Ok_inj in H. subst mm.
  cbn [mr_quality pp_arr pp_orig]. unfold postprocess. cbn [kw_normalize_final kw_transform_final]. rewrite mos_quality_eq by exact wh_finite.
  unfold wh_q. efcbv. ev. reflexivity.
Qed.
Lemma wh_start : mle_start ModeDefault (w_arr wh_ds) [0; 1]%nat 2 wh_q = (wh_q, wg_b, wg_v, wg_a).
Proof.
  unfold mle_start. f_equal; [do 2 f_equal|].
  - efcbv. ev. efred. ev. rewrite ?sqrt_quarter, ?sqrt0_ef. reflexivity.
  - efcbv. ev. efred. ev. rewrite ?sqrt0_ef, ef_sqrt_Fin by lra. reflexivity.
Qed.
Lemma wh_bs : fst (b_simplified (w_arr wh_ds) [0; 1]%nat wh_q wg_b wg_v wg_a) = [Fin (-3 / 14); Fin 0; Fin (3 / 14)].
Proof. acbv. sq. ev. efred. ev. reflexivity. Qed.
Lemma wh_vs : fst (v_simplified (w_arr wh_ds) [0; 1]%nat wh_q wg_b1 wg_v wg_a) = [Fin (2984758 / 2754271); Fin 0; Fin (2984758 / 2754271)].
Proof. acbv. sq. ev. efred. ev. reflexivity. Qed.
Lemma wh_as : exists r, fst (a_simplified (w_arr wh_ds) [0; 1]%nat 2 wh_q wg_b1 wg_v1 wg_a) = [Fin 0; Fin r].
Proof. unfold wg_v1, wg_V. eexists. acbv. sq. ev. efred. ev. reflexivity. Qed.
(** The same votes, each higher by 3. *)
Definition wi_ds := w_ds [ w_dv 0 0 "v0" (OSeq false [w_vote 3; w_vote 3; w_vote 3]); w_dv 1 1 "v1" (OSeq false [w_vote 2; w_vote 3; w_vote 4]) ].
Definition wi_q : list ef := [Fin 3; Fin 3].
Lemma wi_reads : raw_reader wi_ds = Ok (w_reader wi_ds) /\ rd_arr (w_reader wi_ds) = Ok (w_arr wi_ds) /\ exists o, attach_observers (w_reader wi_ds) = Ok o.
Proof. repeat split. eexists. reflexivity. Qed.
Lemma wi_finite : finite_votes (w_arr wi_ds). Proof. cells 2%nat 3%nat 1%nat; exact I. Qed.
Lemma wi_mos : exists mm, run_modeling MOS (w_reader wi_ds) no_options = Ok mm /\ mr_quality mm = wi_q.
Proof.
  destruct (mos_total _ _ _ (proj1 wi_reads) (proj1 (proj2 wi_reads))) as (mm & H). exists mm. split; [exact H|].
  unfold run_modeling, run_kwargs, mos_run, preprocess in H. cbn [bind] in H. rewrite (proj1 (proj2 wi_reads)) in H. cbn [bind] in H.
  destruct wi_reads as (_ & _ & o & Ho). unfold no_options in H. cbn [kw_dscore kw_zscore kw_bias kw_rej bind] in H. rewrite Ho in H. cbn [bind] in H. apply Ok_inj in H. subst mm.
  cbn [mr_quality pp_arr pp_orig]. unfold postprocess. cbn [kw_normalize_final kw_transform_final]. rewrite mos_quality_eq by exact wi_finite.
  unfold wi_q. efcbv. ev. reflexivity.
Qed.
Lemma wi_start : mle_start ModeDefault (w_arr wi_ds) [0; 1]%nat 2 wi_q = (wi_q, wg_b, wg_v, wg_a).
Proof.
  unfold mle_start. f_equal; [do 2 f_equal|].
  - efcbv. ev. efred. ev. rewrite ?sqrt_quarter, ?sqrt0_ef. reflexivity.
  - efcbv. ev. efred. ev. rewrite ?sqrt0_ef, ef_sqrt_Fin by lra. reflexivity.
Qed.
Lemma wi_bs : fst (b_simplified (w_arr wi_ds) [0; 1]%nat wi_q wg_b wg_v wg_a) = [Fin (-3 / 14); Fin 0; Fin (3 / 14)].
Proof. acbv. sq. ev. efred. ev. reflexivity. Qed.
Lemma wi_vs : fst (v_simplified (w_arr wi_ds) [0; 1]%nat wi_q wg_b1 wg_v wg_a) = [Fin (2984758 / 2754271); Fin 0; Fin (2984758 / 2754271)].
Proof. acbv. sq. ev. efred. ev. reflexivity. Qed.
Lemma wi_as : exists r, fst (a_simplified (w_arr wi_ds) [0; 1]%nat 2 wi_q wg_b1 wg_v1 wg_a) = [Fin 0; Fin r].
Proof. unfold wg_v1, wg_V. eexists. acbv. sq. ev. efred. ev. reflexivity. Qed.
Lemma wh_tr : transformed (rescale 1 3) (w_arr wh_ds) (w_arr wi_ds).
Proof. repeat split. cells 2%nat 3%nat 1%nat; cbn; f_equal; lra. Qed.

Lemma wh_xs : forall a, fst (x_simplified (w_arr wh_ds) [0; 1]%nat wh_q wg_b1 wg_v1 [Fin 0; Fin a]) = wh_q.
Proof.
  intro a. assert (P := wg_Vpos). assert (P2 : 0 < wg_V * wg_V) by (apply Rmult_lt_0_compat; lra). assert (A0 : 0 <= a * a) by apply Rle_0_sqr.
  unfold wg_v1. vcbv. cbn [ef_mul ef_add ef_sub ef_neg ef_isnan].
  rewrite !(div_ne _ (wg_V * wg_V + 0 * 0)) by lra. rewrite !(div_ne _ (wg_V * wg_V + a * a)) by lra.
  replace (0 * 0 + 0 * 0) with 0 by ring. replace (0 + - 0) with 0 by ring. rewrite div0_nan, (div0_pos 1) by lra.
  destruct (Req_EM_T a 0) as [->|Ha].
  - replace (0 * 0 + 0 * 0) with 0 by ring. rewrite div0_nan, (div0_pos 1) by lra. efred. cbn [ef_add ef_neg ef_div ef_sub]. unfold wh_q.
    repeat f_equal; ring.
  - assert (A1 : 0 * 0 + a * a <> 0) by (assert (a * a <> 0) by (apply Rmult_integral_contrapositive_currified; assumption); lra).
    rewrite !(div_ne _ (0 * 0 + a * a)) by exact A1. rewrite !nansum3. efred. cbn [ef_add ef_neg].
    assert (D : 1 / (wg_V * wg_V + a * a) + 1 / (0 * 0 + a * a) + 1 / (wg_V * wg_V + a * a) <> 0).
    { assert (Ap : 0 < a * a) by (destruct A0 as [A0|A0]; [exact A0|exfalso; apply A1; rewrite <- A0; ring]).
      assert (H1 := Rinv_0_lt_compat (wg_V * wg_V + a * a) ltac:(lra)). assert (H2 := Rinv_0_lt_compat (0 * 0 + a * a) ltac:(lra)). unfold Rdiv. lra. }
    rewrite (div_ne _ _ D). cbn [ef_div ef_add ef_neg]. unfold wh_q. f_equal. f_equal. f_equal.
    match goal with |- ?n / _ = _ => replace n with 0; [unfold Rdiv; ring|] end. field. repeat split; lra.
Qed.
Lemma wi_xs : forall a, exists y, fst (x_simplified (w_arr wi_ds) [0; 1]%nat wi_q wg_b1 wg_v1 [Fin 0; Fin a]) = [NaN; y].
Proof.
  intro a. assert (P := wg_Vpos). assert (P2 : 0 < wg_V * wg_V + 0 * 0) by (assert (0 < wg_V * wg_V) by (apply Rmult_lt_0_compat; lra); lra).
  unfold wg_v1. eexists. vcbv. cbn [ef_mul ef_add ef_sub ef_neg ef_isnan].
  rewrite !(div_ne _ (wg_V * wg_V + 0 * 0)) by lra.
  replace (0 * 0 + 0 * 0) with 0 by ring. rewrite (div0_pos (3 + - 0)), (div0_pos 1) by lra.
  reflexivity.
Qed.

Section Refute.
  Variable chi : ef -> ef -> ef.
  Lemma wi_pass : forall f itr, mle_loop (S f) itr ModeDefault Simplified GaussianPdf (Fin (1 / 100000000)) (w_arr wi_ds) [0; 1]%nat 2 wi_q wg_b wg_v wg_a = Err ValueError.
  Proof.
    intros f itr. rewrite loop_unfold. unfold mle_pass. cbn [pick bind]. rewrite wi_bs, wg_rb, wi_vs, wg_rv.
    destruct wi_as as (r & ->). destruct (wg_ra r) as (r' & ->). destruct (wi_xs r') as (y & ->).
    unfold moved, vecs. cbn [sx sb sv sa bind]. unfold wi_q, refresh, vmap2. cbn [combine map fst snd].
    unfold sp_norm. cbn [map fst snd existsb]. efc. change (ef_mul NaN (Fin (1 / 10))) with NaN; rewrite add_nan_r, sub_nan_r. reflexivity.
  Qed.
  Lemma wh_loop : forall f, exists st, sx st = wh_q /\
    mle_loop (S f) 0 ModeDefault Simplified GaussianPdf (Fin (1 / 100000000)) (w_arr wh_ds) [0; 1]%nat 2 wh_q wg_b wg_v wg_a = Ok (st, 1%nat).
  Proof.
    intros f. rewrite loop_unfold. unfold mle_pass. cbn [pick bind]. rewrite wh_bs, wg_rb, wh_vs, wg_rv.
    destruct wh_as as (r & ->). destruct (wg_ra r) as (r' & ->). rewrite wh_xs.
    unfold vecs. cbn [sx sb sv sa bind].
    assert (Rq : refresh wh_q wh_q = wh_q) by (efcbv; ev; reflexivity). rewrite Rq.
    assert (M : forall b v a b' v' a', moved (wh_q, b, v, a) (wh_q, b', v', a') = Ok (Fin 0)) by (intros; efcbv; ev; efred; ev; rewrite sqrt0_ef; reflexivity). rewrite M. cbn [bind].
    unfold ll_s at 1, logpdf at 1. cbn [bind ef_ltb]. rewrite Rltb_t by lra. eexists. split; [|reflexivity]. reflexivity.
  Qed.
  Lemma whi_differ : (exists m, mle_run_modeling chi MLE (w_reader wh_ds) no_options (MleOpts None None None None) = Ok m) /\
    mle_run_modeling chi MLE (w_reader wi_ds) no_options (MleOpts None None None None) = Err ValueError.
  Proof.
    destruct fuel_S as (fu & Hf). split.
    - destruct wh_mos as (mm & Hm & Eq). destruct wh_reads as (_ & Ha & obs & Ho).
      assert (HH : Forall (fun c : Z => (0 <= c < 2)%Z) (content_id_of_dis_videos (ds_dis wh_ds))) by (cbn; repeat (constructor; [lia|]); constructor).
      rewrite (w_run_mle chi MLE wh_ds (MleOpts None None None None) mm obs (or_introl eq_refl) ltac:(discriminate) Ha eq_refl Hm Ho eq_refl HH).
      rewrite Eq, solve_split. unfold loop_from. change (map Z.to_nat (content_id_of_dis_videos (ds_dis wh_ds))) with [0; 1]%nat. cbn [mode_of]. rewrite wh_start, Hf.
      change (threshold_of _) with (Fin (1 / 100000000)). change (pdf_of _) with GaussianPdf. change (gradient_of _) with Simplified.
      destruct (wh_loop fu) as (st & Es & ->). cbn [bind].
      destruct (report_total chi ModeDefault (MleOpts None None None None) (w_arr wh_ds) (w_arr wh_ds) [0; 1]%nat 2 st 1 eq_refl) as (m & R).
      rewrite R. cbn [bind]. eexists. reflexivity.
    - destruct wi_mos as (mm & Hm & Eq). destruct wi_reads as (_ & Ha & obs & Ho).
      assert (HH : Forall (fun c : Z => (0 <= c < 2)%Z) (content_id_of_dis_videos (ds_dis wi_ds))) by (cbn; repeat (constructor; [lia|]); constructor).
      rewrite (w_run_mle chi MLE wi_ds (MleOpts None None None None) mm obs (or_introl eq_refl) ltac:(discriminate) Ha eq_refl Hm Ho eq_refl HH).
      rewrite Eq, solve_split. unfold loop_from. change (map Z.to_nat (content_id_of_dis_videos (ds_dis wi_ds))) with [0; 1]%nat. cbn [mode_of]. rewrite wi_start, Hf.
      change (threshold_of _) with (Fin (1 / 100000000)). change (pdf_of _) with GaussianPdf. change (gradient_of _) with Simplified.
      rewrite wi_pass. reflexivity.
  Qed.
End Refute.

Lemma scale_refuted : exists c rd rd' a a' kw o, rd_arr rd = Ok a /\ rd_arr rd' = Ok a' /\ finite_votes a /\ transformed (rescale 1 3) a a' /\
  same_test rd rd' /\ plain_votes kw /\ same_options 1 o o /\ gradient_of o = Simplified /\ forall chi,
  (exists m, mle_run_modeling chi c rd kw o = Ok m) /\ mle_run_modeling chi c rd' kw o = Err ValueError.
Proof.
  exists MLE, (w_reader wh_ds), (w_reader wi_ds), (w_arr wh_ds), (w_arr wi_ds), no_options, (MleOpts None None None None).
  split; [reflexivity|]. split; [reflexivity|]. split; [exact wh_finite|]. split; [exact wh_tr|]. split; [repeat split|]. split; [repeat split|].
  split; [|split; [reflexivity|exact whi_differ]]. repeat split. cbn. rewrite Rabs_R1. unfold times. cbn. f_equal. lra.
Qed.
Lemma wf_stays : forall m : mleres ef, stays_regular MLE_CO (w_reader wf_ds) no_options (MleOpts None None None None) (ml_iter m).
Proof.
  intros m x cids C s B. apply wf_begins in B as (-> & -> & -> & ->). split; [exact wf_finite|]. intros j s' _ P.
  change (gradient_of _) with Simplified in P. change (pdf_of _) with GaussianPdf in P. cbn [mode_of] in P. rewrite wf_passes in P. apply Ok_inj in P. subst s'. exists wf_p. split; [exact wf_holds|exact wf_regular].
Qed.
Lemma doubled : forall chi, exists m m', mle_run_modeling chi MLE_CO (w_reader wf_ds) no_options (MleOpts None None None None) = Ok m /\
  mle_run_modeling chi MLE_CO (w_reader wf2_ds) no_options wf2_o = Ok m' /\ on_scale 2 1 m m'.
Proof.
  intro chi. destruct (wf_run chi None) as (m & H & _). exists m.
  destruct (scale_simplified chi MLE_CO 2 1 (w_reader wf_ds) (w_reader wf2_ds) (w_arr wf_ds) (w_arr wf2_ds) no_options (MleOpts None None None None) wf2_o m) as (m' & R1 & R2);
    [tauto|lra|reflexivity|reflexivity|exact wf_finite|exact wf2_tr|exact wf2_test|repeat split|exact wf2_opts|reflexivity|exact H|apply wf_stays|].
  exists m'. auto.
Qed.
