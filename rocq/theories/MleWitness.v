(** Concrete datasets for the maximum likelihood models. *)
From Coq Require Import String.
From Coq Require Import List ZArith Bool Arith Reals Lra Lia.
From Verif Require Import PyBase Num ExtReal NumPy Dataset Preproc Mos AP Mle SpecMos SpecAp SpecMle BaseProofs ExtRealProofs
  ArrayProofs StepsProofs MosProofs MosWitness ApProofs Ap2Proofs ApWitness MleProofs Mle2Proofs Mle3Proofs Mle4Proofs Mle5Proofs Mle6Proofs Mle7Proofs Eval.
Import ListNotations.
Local Open Scope R_scope.
Local Open Scope string_scope.

(** ** Two videos of one content, two subjects: a fixed point of the
    content-oblivious updates. *)
Definition wf_ds := w_ds [ w_dv 0 0 "v0" (OSeq false [w_vote 4; w_vote 2]); w_dv 0 1 "v1" (OSeq false [w_vote 1; w_vote 3]) ].
Definition wf_q : list ef := [Fin 3; Fin 2].
Definition wf_b : list ef := [Fin 0; Fin 0].
Definition wf_v : list ef := [Fin 1; Fin 1].
Definition wf_a : list ef := [Fin 0; Fin 0].
Definition wf_p : params := Params (fun e => match e with O => 3 | _ => 2 end) (fun _ => 0) (fun _ => 1) (fun _ => 0).

Lemma wf_reads : raw_reader wf_ds = Ok (w_reader wf_ds) /\ rd_arr (w_reader wf_ds) = Ok (w_arr wf_ds) /\ exists o, attach_observers (w_reader wf_ds) = Ok o.
Proof. repeat split. eexists. reflexivity. Qed.
Lemma wf_finite : finite_votes (w_arr wf_ds). Proof. cells 2%nat 2%nat 1%nat; exact I. Qed.
Lemma wf_fits : fits (w_arr wf_ds) [0; 0]%nat 2. Proof. split; [reflexivity|]. repeat constructor. Qed.
Lemma wf_holds : holds (w_arr wf_ds) [0; 0]%nat 2 wf_p wf_q wf_b wf_v wf_a.
Proof.
  split; try reflexivity.
  - intros e He _. change (e < 2)%nat in He. destruct e as [|[|e]]; [reflexivity|reflexivity|lia].
  - intros e He _. change (e < 2)%nat in He. destruct e as [|[|e]]; [reflexivity|reflexivity|lia].
  - intros e He _. change (e < 2)%nat in He. destruct e as [|[|e]]; [reflexivity|reflexivity|lia].
  - intros c (e & He & Hc & _). change (e < 2)%nat in He. destruct e as [|[|e]]; [| |lia]; cbn in Hc; subst c; reflexivity.
Qed.
Lemma wf_regular : regular (w_arr wf_ds) (cid_of [0; 0]%nat) wf_p.
Proof. intros e i r v _ _. unfold variance. cbn. lra. Qed.

Lemma wf_bstep : b_simplified (w_arr wf_ds) [0; 0]%nat wf_q wf_b wf_v wf_a = ([Fin 0; Fin 0], [Fin 2; Fin 2]).
Proof. efcbv. ev. efred. ev. reflexivity. Qed.
Lemma wf_vstep : v_simplified (w_arr wf_ds) [0; 0]%nat wf_q wf_b wf_v wf_a = ([Fin 1; Fin 1], [Fin 4; Fin 4]).
Proof. efcbv. ev. efred. ev. reflexivity. Qed.
Lemma wf_xstep : x_simplified (w_arr wf_ds) [0; 0]%nat wf_q wf_b wf_v wf_a = (wf_q, [Fin 2; Fin 2]).
Proof. efcbv. ev. efred. ev. reflexivity. Qed.
Lemma wf_refresh_b : refresh wf_b [Fin 0; Fin 0] = wf_b. Proof. efcbv. ev. reflexivity. Qed.
Lemma wf_refresh_v : clip0 (refresh wf_v [Fin 1; Fin 1]) = wf_v. Proof. efcbv. ev. unfold nmaximum. efcbv. ev. cbn. ev. reflexivity. Qed.
Lemma wf_refresh_q : refresh wf_q wf_q = wf_q. Proof. efcbv. ev. reflexivity. Qed.

Lemma wf_pass : forall pdf, exists xs bs vs, mle_pass ContentOblivious Simplified pdf (w_arr wf_ds) [0; 0]%nat 2 wf_q wf_b wf_v wf_a =
  Ok (MlEst wf_q wf_b wf_v wf_a xs bs vs wf_a).
Proof.
  intro pdf. unfold mle_pass. cbn [pick bind]. rewrite wf_bstep. cbn [fst snd]. rewrite wf_refresh_b, wf_vstep. cbn [fst snd]. rewrite wf_refresh_v.
  change (zeros 2) with wf_a. rewrite wf_xstep. cbn [fst snd]. rewrite wf_refresh_q. do 3 eexists. reflexivity.
Qed.

Lemma sqrt0_ef : ef_sqrt (Fin 0) = Fin 0.
Proof. rewrite ef_sqrt_Fin by lra. rewrite sqrt_0. reflexivity. Qed.
Lemma sqrt1_ef : ef_sqrt (Fin 1) = Fin 1.
Proof. rewrite ef_sqrt_Fin by lra. rewrite sqrt_1. reflexivity. Qed.
Lemma fuel_S : exists f, mle_max_itr = S f.
Proof. exists (99 + 99 * 100)%nat. reflexivity. Qed.

Lemma wf_start : mle_start ContentOblivious (w_arr wf_ds) [0; 0]%nat 2 wf_q = (wf_q, wf_b, wf_v, wf_a).
Proof.
  unfold mle_start. do 2 f_equal.
  efcbv. ev. efred. ev. efred. ev. rewrite sqrt1_ef. reflexivity.
Qed.
Lemma wf_moved : moved (wf_q, wf_b, wf_v, wf_a) (wf_q, wf_b, wf_v, wf_a) = Ok (Fin 0).
Proof. efcbv. ev. efred. ev. rewrite sqrt0_ef. reflexivity. Qed.
Lemma wf_loop : forall f pdf d, (forall q b v a, exists l, ll_s pdf (w_arr wf_ds) q b v a [0; 0]%nat = Ok l) -> 0 < d -> exists st,
  vecs st = (wf_q, wf_b, wf_v, wf_a) /\
  mle_loop (S f) 0 ContentOblivious Simplified pdf (Fin d) (w_arr wf_ds) [0; 0]%nat 2 wf_q wf_b wf_v wf_a = Ok (st, 1%nat).
Proof.
  intros f pdf d HL Hd. destruct (wf_pass pdf) as (xs & bs & vs & P). exists (MlEst wf_q wf_b wf_v wf_a xs bs vs wf_a). split; [reflexivity|].
  rewrite loop_unfold, P. cbn [bind]. unfold vecs. cbn [sx sb sv sa]. rewrite wf_moved. cbn [bind].
  destruct (HL wf_q wf_b wf_v wf_a) as (l & ->). cbn [bind ef_ltb]. rewrite Rltb_t by exact Hd. reflexivity.
Qed.
Lemma wf_mos : exists mm, run_modeling MOS (w_reader wf_ds) no_options = Ok mm /\ mr_quality mm = wf_q.
Proof.
  destruct (mos_total _ _ _ (proj1 wf_reads) (proj1 (proj2 wf_reads))) as (mm & H). exists mm. split; [exact H|].
  unfold run_modeling, run_kwargs, mos_run, preprocess in H. cbn [bind] in H. rewrite (proj1 (proj2 wf_reads)) in H. cbn [bind] in H.
  destruct wf_reads as (_ & _ & o & Ho). unfold no_options in H. cbn [kw_dscore kw_zscore kw_bias kw_rej bind] in H. rewrite Ho in H. cbn [bind] in H. apply Ok_inj in H. subst mm.
  cbn [mr_quality pp_arr pp_orig]. unfold postprocess. cbn [kw_normalize_final kw_transform_final]. rewrite mos_quality_eq by exact wf_finite.
  unfold wf_q. efcbv. ev. reflexivity.
Qed.

Section Runs.
  Variable chi : ef -> ef -> ef.
  Lemma run_unfold : forall c (rd : reader ef) k o k' pp mm mx obs,
      mle_kwargs c k = Ok k' -> kw_rej k' = false -> mo_gradient o <> Some OtherGradient ->
      preprocess rd k' = Ok pp -> zmax_list (map rv_cid (ds_refs (rd_ds rd))) = Ok mx ->
      run_modeling MOS rd no_options = Ok mm -> attach_observers rd = Ok obs ->
      length (content_id_of_dis_videos (rd_dvs rd)) = dE (pp_arr pp) -> Forall (fun c => (0 <= c < mx + 1)%Z) (content_id_of_dis_videos (rd_dvs rd)) ->
      mle_run_modeling chi c rd k o =
      do m0 <- mle_solve chi (mode_of c) o (pp_arr pp) (pp_orig pp) (mr_quality mm) (map Z.to_nat (content_id_of_dis_videos (rd_dvs rd))) (Z.to_nat (mx + 1));
      Ok (finish k' obs m0).
  Proof.
    intros c rd k o k' pp mm mx obs H1 H2 H3 H4 H5 H6 H7 H8 H9. unfold mle_run_modeling. rewrite H1. cbn [bind].
    unfold mle_run. rewrite H2. cbn [negb assert_ bind]. rewrite H4. cbn [bind].
    assert (G : match mo_gradient o with Some OtherGradient => Err AssertionError | _ => Ok tt end = Ok tt).
    { destruct (mo_gradient o) as [[]|]; try reflexivity. contradiction. }
    rewrite G. cbn [bind]. rewrite H5. cbn [bind]. cbv zeta. unfold no_options in H6. rewrite H6. cbn [bind]. rewrite <- H8, Nat.eqb_refl. cbn [assert_ bind].
    assert (F : forall l, Forall (fun c => (0 <= c < mx + 1)%Z) l -> forM_ (fun c0 : Z => assert_ ((0 <=? c0)%Z && (c0 <? mx + 1)%Z)) l = Ok tt).
    { induction l as [|z l IH]; intro F; [reflexivity|]. inversion F as [|? ? A B]. subst. cbn.
      rewrite (proj2 (Z.leb_le 0 z)) by lia. rewrite (proj2 (Z.ltb_lt z (mx + 1))) by lia. cbn. apply IH. exact B. }
    rewrite F by exact H9. cbn [bind]. destruct (mle_solve _ _ _ _ _ _ _ _); cbn [bind]; [|reflexivity]. rewrite H7. reflexivity.
  Qed.
  Lemma w_run_mle : forall c ds o mm obs, (c = MLE \/ c = MLE_CO \/ c = MLE_SO) -> mo_gradient o <> Some OtherGradient -> rd_arr (w_reader ds) = Ok (w_arr ds) ->
    map rv_cid (ds_refs ds) = [0; 1]%Z -> run_modeling MOS (w_reader ds) no_options = Ok mm -> attach_observers (w_reader ds) = Ok obs ->
    length (content_id_of_dis_videos (ds_dis ds)) = dE (w_arr ds) -> Forall (fun c => (0 <= c < 2)%Z) (content_id_of_dis_videos (ds_dis ds)) ->
    mle_run_modeling chi c (w_reader ds) no_options o =
    do m0 <- mle_solve chi (mode_of c) o (w_arr ds) (w_arr ds) (mr_quality mm) (map Z.to_nat (content_id_of_dis_videos (ds_dis ds))) 2;
    Ok (finish no_options obs m0).
  Proof.
    intros c ds o mm obs Hc Hg Ha Hr Hm Ho HL HF.
    assert (PP0 : preprocess (w_reader ds) no_options = Ok (PP (w_arr ds) (w_arr ds) None None)).
    { unfold preprocess, no_options. rewrite Ha. reflexivity. }
    refine (run_unfold c (w_reader ds) no_options o no_options (PP (w_arr ds) (w_arr ds) None None) mm 1%Z obs _ _ _ _ _ _ _ _ _); try assumption.
    - destruct Hc as [->|[->| ->]]; reflexivity.
    - reflexivity.
    - cbn [rd_ds w_reader]. rewrite Hr. reflexivity.
  Qed.

  Lemma report_total : forall mode o x x0 cids C st itr, pdf_of o = GaussianPdf -> exists m, report chi mode o x x0 cids C st itr = Ok m.
  Proof.
    intros mode o x x0 cids C st itr E. unfold report. destruct (zero_mean _ _ _) as [q b]. cbv zeta. rewrite E. unfold ll_s, logpdf. cbn [bind]. eexists. reflexivity.
  Qed.

  (** The run on [wf_ds]. *)
  Lemma wf_run : forall f, exists m, mle_run_modeling chi MLE_CO (w_reader wf_ds) no_options (MleOpts None None None f) = Ok m /\ ml_iter m = 1%nat /\
    ml_raw m = w_arr wf_ds /\ (f = Some false -> ml_bias m = Some wf_b).
  Proof.
    intro f. destruct wf_mos as (mm & Hm & Eq). destruct wf_reads as (_ & Ha & obs & Ho).
    assert (HH : Forall (fun c : Z => (0 <= c < 2)%Z) (content_id_of_dis_videos (ds_dis wf_ds))) by (cbn; repeat (constructor; [lia|]); constructor).
    rewrite (w_run_mle MLE_CO wf_ds (MleOpts None None None f) mm obs (or_intror (or_introl eq_refl)) ltac:(discriminate) Ha eq_refl Hm Ho eq_refl HH).
    rewrite Eq, solve_split. unfold loop_from. change (map Z.to_nat (content_id_of_dis_videos (ds_dis wf_ds))) with [0; 0]%nat. cbn [mode_of]. rewrite wf_start.
    destruct fuel_S as (fu & ->).
    destruct (wf_loop fu GaussianPdf (1 / 100000000)) as (st & E & L); [intros; eexists; reflexivity|lra|].
    change (threshold_of _) with (Fin (1 / 100000000)). change (pdf_of _) with GaussianPdf. change (gradient_of _) with Simplified. rewrite L. cbn [bind].
    destruct (report_total ContentOblivious (MleOpts None None None f) (w_arr wf_ds) (w_arr wf_ds) [0; 0]%nat 2 st 1 eq_refl) as (m & R). rewrite R. cbn [bind].
    eexists. split; [reflexivity|]. destruct (report_iter _ _ _ _ _ _ _ _ _ _ R) as [E1 E2]. split; [exact E1|]. split; [exact E2|].
    intros ->. unfold report in R. cbn [mo_force zero_mean] in R. cbv zeta in R. unfold ll_s, logpdf in R. cbn [pdf_of mo_pdf bind] in R. apply Ok_inj in R. subst m.
    cbn [finish ml_bias]. unfold vecs in E. injection E as _ -> _ _. reflexivity.
  Qed.
  Lemma wf_begins : forall x cids C s, begins MLE_CO (w_reader wf_ds) no_options x cids C s ->
    x = w_arr wf_ds /\ cids = [0; 0]%nat /\ C = 2%nat /\ s = (wf_q, wf_b, wf_v, wf_a).
  Proof.
    intros x cids C s (k' & pp & mm & K1 & K2 & K3 & K4 & K5 & (mx & K6 & K7) & K8). apply Ok_inj in K1. subst k'.
    assert (PP0 : preprocess (w_reader wf_ds) no_options = Ok (PP (w_arr wf_ds) (w_arr wf_ds) None None)) by (unfold preprocess, no_options; reflexivity).
    rewrite PP0 in K2. apply Ok_inj in K2. subst pp. cbn [pp_arr] in K3. subst x. apply Ok_inj in K6. subst mx. change (Z.to_nat _) with 2%nat in K7. subst C.
    change (map Z.to_nat _) with [0; 0]%nat in K5. subst cids. destruct wf_mos as (m2 & Hm & Eq). rewrite K4 in Hm. apply Ok_inj in Hm. subst m2. rewrite Eq in K8.
    cbn [mode_of] in K8. rewrite wf_start in K8. auto.
  Qed.
  Lemma wf_begin : begins MLE_CO (w_reader wf_ds) no_options (w_arr wf_ds) [0; 0]%nat 2 (wf_q, wf_b, wf_v, wf_a).
  Proof.
    destruct wf_mos as (m2 & Hm & Eq). exists no_options, (PP (w_arr wf_ds) (w_arr wf_ds) None None), m2. repeat split; try assumption; try reflexivity.
    - exists 1%Z. split; reflexivity.
    - rewrite Eq. symmetry. exact wf_start.
  Qed.
  Lemma wf_passes : forall j, passes ContentOblivious Simplified GaussianPdf (w_arr wf_ds) [0; 0]%nat 2 j (wf_q, wf_b, wf_v, wf_a) = Ok (wf_q, wf_b, wf_v, wf_a).
  Proof.
    induction j as [|j IH]; [reflexivity|]. rewrite passes_S, IH. cbn [bind one]. destruct (wf_pass GaussianPdf) as (xs & bs & vs & ->). reflexivity.
  Qed.
End Runs.

(** ** Two videos of different contents, three subjects: all agree on the first
    video, the second subject is exactly at the mean of both. *)
Definition wg_ds := w_ds [ w_dv 0 0 "v0" (OSeq false [w_vote 3; w_vote 3; w_vote 3]); w_dv 1 1 "v1" (OSeq false [w_vote 1; w_vote 2; w_vote 3]) ].
Definition wg_amb : R := sqrt (2 / 3).
Definition wg_q : list ef := [Fin 3; Fin 2].
Definition wg_b : list ef := [Fin 0; Fin 0; Fin 0].
Definition wg_v : list ef := [Fin (1 / 2); Fin 0; Fin (1 / 2)].
Definition wg_a : list ef := [Fin 0; Fin wg_amb].
Lemma wg_sq : wg_amb * wg_amb = 2 / 3.
Proof. unfold wg_amb. apply sqrt_sqrt. lra. Qed.
Lemma wg_reads : raw_reader wg_ds = Ok (w_reader wg_ds) /\ rd_arr (w_reader wg_ds) = Ok (w_arr wg_ds) /\ exists o, attach_observers (w_reader wg_ds) = Ok o.
Proof. repeat split. eexists. reflexivity. Qed.
Lemma wg_finite : finite_votes (w_arr wg_ds). Proof. cells 2%nat 3%nat 1%nat; exact I. Qed.
Lemma wg_mos : exists mm, run_modeling MOS (w_reader wg_ds) no_options = Ok mm /\ mr_quality mm = wg_q.
Proof.
  destruct (mos_total _ _ _ (proj1 wg_reads) (proj1 (proj2 wg_reads))) as (mm & H). exists mm. split; [exact H|].
  unfold run_modeling, run_kwargs, mos_run, preprocess in H. cbn [bind] in H. rewrite (proj1 (proj2 wg_reads)) in H. cbn [bind] in H.
  destruct wg_reads as (_ & _ & o & Ho). unfold no_options in H. cbn [kw_dscore kw_zscore kw_bias kw_rej bind] in H. rewrite Ho in H. cbn [bind] in H. apply Ok_inj in H. subst mm.
  cbn [mr_quality pp_arr pp_orig]. unfold postprocess. cbn [kw_normalize_final kw_transform_final]. rewrite mos_quality_eq by exact wg_finite.
  unfold wg_q. efcbv. ev. reflexivity.
Qed.
Lemma sqrt_quarter : ef_sqrt (Fin (1 / 4)) = Fin (1 / 2).
Proof. rewrite ef_sqrt_Fin by lra. f_equal. replace (1 / 4) with ((1 / 2) * (1 / 2)) by lra. apply sqrt_square. lra. Qed.
Lemma wg_start : mle_start ModeDefault (w_arr wg_ds) [0; 1]%nat 2 wg_q = (wg_q, wg_b, wg_v, wg_a).
Proof.
  unfold mle_start. f_equal; [do 2 f_equal|].
  - efcbv. ev. efred. ev. rewrite ?sqrt_quarter, ?sqrt0_ef. reflexivity.
  - efcbv. ev. efred. ev. rewrite ?sqrt0_ef, ef_sqrt_Fin by lra. reflexivity.
Qed.

Ltac sq := change (ef_mul (Fin wg_amb) (Fin wg_amb)) with (Fin (wg_amb * wg_amb)); rewrite ?wg_sq.
Ltac acbv := cbv -[wg_amb ef_add ef_sub ef_mul ef_div ef_neg ef_abs ef_sqrt ef_exp ef_ln ef_ltb ef_leb ef_eqb ef_isnan ef_isinf
  np_nansum np_sum np_nanstd np_nanmean sp_norm nmaximum IZR Rplus Rmult Rinv Ropp Rminus Rdiv sqrt Rltb Rleb].
Definition wg_b1 : list ef := [Fin (-3 / 140); Fin 0; Fin (3 / 140)].
Definition wg_V : R := 6151591 / 11017084.
Definition wg_v1 : list ef := [Fin wg_V; Fin 0; Fin wg_V].
Lemma wg_bs : fst (b_simplified (w_arr wg_ds) [0; 1]%nat wg_q wg_b wg_v wg_a) = [Fin (-3 / 14); Fin 0; Fin (3 / 14)].
Proof. acbv. sq. ev. efred. ev. reflexivity. Qed.
Lemma wg_bo : fst (b_original (w_arr wg_ds) [0; 1]%nat wg_q wg_b wg_v wg_a) = [Fin (-3 / 14); Fin 0; Fin (3 / 14)].
Proof. acbv. sq. ev. efred. ev. reflexivity. Qed.
Lemma wg_rb : refresh wg_b [Fin (-3 / 14); Fin 0; Fin (3 / 14)] = wg_b1.
Proof. efcbv. ev. reflexivity. Qed.
Lemma wg_vs : fst (v_simplified (w_arr wg_ds) [0; 1]%nat wg_q wg_b1 wg_v wg_a) = [Fin (2984758 / 2754271); Fin 0; Fin (2984758 / 2754271)].
Proof. acbv. sq. ev. efred. ev. reflexivity. Qed.
Lemma wg_rv : clip0 (refresh wg_v [Fin (2984758 / 2754271); Fin 0; Fin (2984758 / 2754271)]) = wg_v1.
Proof. efcbv. ev. efred. cbn [ef_ltb ef_leb]. ev. reflexivity. Qed.
Lemma wg_as : exists r, fst (a_simplified (w_arr wg_ds) [0; 1]%nat 2 wg_q wg_b1 wg_v1 wg_a) = [Fin 0; Fin r].
Proof. unfold wg_v1, wg_V. eexists. acbv. sq. ev. efred. ev. reflexivity. Qed.
Lemma wg_ra : forall r, exists r', clip0 (refresh wg_a [Fin 0; Fin r]) = [Fin 0; Fin r'].
Proof.
  intro r. acbv. ev. unfold nmaximum. efred. cbn [ef_ltb ef_leb ef_isnan].
  rewrite (Rltb_f 0 0) by lra. destruct (Rltb _ _); eexists; reflexivity.
Qed.
Ltac vcbv := cbv -[wg_V ef_add ef_sub ef_mul ef_div ef_neg ef_abs ef_sqrt ef_exp ef_ln ef_ltb ef_leb ef_eqb ef_isnan ef_isinf
  np_nansum np_sum np_nanstd np_nanmean sp_norm nmaximum IZR Rplus Rmult Rinv Ropp Rminus Rdiv sqrt Rltb Rleb].
Lemma wg_Vpos : 0 < wg_V. Proof. unfold wg_V. lra. Qed.
Lemma nansum3 : forall u v w : R, np_nansum [Fin u; Fin v; Fin w] = Fin (u + v + w).
Proof. intros. efred. cbn [ef_add]. f_equal. ring. Qed.
Lemma wg_xs : forall a, exists y, fst (x_simplified (w_arr wg_ds) [0; 1]%nat wg_q wg_b1 wg_v1 [Fin 0; Fin a]) = [NaN; y].
Proof.
  intro a. assert (P := wg_Vpos). assert (P2 : 0 < wg_V * wg_V + 0 * 0) by (assert (0 < wg_V * wg_V) by (apply Rmult_lt_0_compat; lra); lra).
  unfold wg_v1. eexists. vcbv. cbn [ef_mul ef_add ef_sub ef_neg ef_isnan].
  rewrite !(div_ne _ (wg_V * wg_V + 0 * 0)) by lra.
  replace (0 * 0 + 0 * 0) with 0 by ring. rewrite (div0_pos (3 + - 0)), (div0_pos 1) by lra.
  reflexivity.
Qed.
Lemma wg_xo : forall a, fst (x_original (w_arr wg_ds) [0; 1]%nat wg_q wg_b1 wg_v1 [Fin 0; Fin a]) = wg_q.
Proof.
  intro a. assert (P := wg_Vpos). assert (P2 : 0 < wg_V * wg_V) by (apply Rmult_lt_0_compat; lra). assert (A0 : 0 <= a * a) by apply Rle_0_sqr.
  unfold wg_v1. vcbv. cbn [ef_mul ef_add ef_sub ef_neg ef_isnan].
  rewrite !(div_ne _ (wg_V * wg_V + 0 * 0)) by lra. rewrite !(div_ne _ (wg_V * wg_V + a * a)) by lra.
  replace (0 * 0 + 0 * 0) with 0 by ring. replace (3 + - (3) + - 0) with 0 by ring. replace (2 + - (2) + - 0) with 0 by ring. rewrite div0_nan.
  rewrite (div0_neg (- (1))) by lra.
  destruct (Req_EM_T a 0) as [->|Ha].
  - replace (0 * 0 + 0 * 0) with 0 by ring. rewrite div0_nan, (div0_neg (- (1))) by lra. efred. cbn [ef_add ef_neg ef_div ef_sub]. unfold wg_q.
    repeat f_equal; ring.
  - assert (A1 : 0 * 0 + a * a <> 0) by (assert (a * a <> 0) by (apply Rmult_integral_contrapositive_currified; assumption); lra).
    rewrite !(div_ne _ (0 * 0 + a * a)) by exact A1. rewrite !nansum3. efred. cbn [ef_add ef_neg].
    assert (D : - (1) / (wg_V * wg_V + a * a) + - (1) / (0 * 0 + a * a) + - (1) / (wg_V * wg_V + a * a) <> 0).
    { assert (Ap : 0 < a * a) by (destruct A0 as [A0|A0]; [exact A0|exfalso; apply A1; rewrite <- A0; ring]).
      assert (H1 := Rinv_0_lt_compat (wg_V * wg_V + a * a) ltac:(lra)). assert (H2 := Rinv_0_lt_compat (0 * 0 + a * a) ltac:(lra)). unfold Rdiv. lra. }
    rewrite (div_ne _ _ D). cbn [ef_div ef_add ef_neg]. unfold wg_q. f_equal; [f_equal; ring|]. f_equal. f_equal. field. lra.
Qed.

Section Refute.
  Variable chi : ef -> ef -> ef.
  Lemma wg_pass_s : forall f itr, mle_loop (S f) itr ModeDefault Simplified GaussianPdf (Fin (1 / 100000000)) (w_arr wg_ds) [0; 1]%nat 2 wg_q wg_b wg_v wg_a = Err ValueError.
  Proof.
    intros f itr. rewrite loop_unfold. unfold mle_pass. cbn [pick bind]. rewrite wg_bs, wg_rb, wg_vs, wg_rv.
    destruct wg_as as (r & ->). destruct (wg_ra r) as (r' & ->). destruct (wg_xs r') as (y & ->).
    unfold moved, vecs. cbn [sx sb sv sa bind]. unfold wg_q, refresh, vmap2. cbn [combine map fst snd].
    unfold sp_norm. cbn [map fst snd existsb]. efc. change (ef_mul NaN (Fin (1 / 10))) with NaN; rewrite add_nan_r, sub_nan_r. reflexivity.
  Qed.
  Lemma wg_loop_o : forall f, exists st, sx st = wg_q /\
    mle_loop (S f) 0 ModeDefault Original GaussianPdf (Fin (1 / 100000000)) (w_arr wg_ds) [0; 1]%nat 2 wg_q wg_b wg_v wg_a = Ok (st, 1%nat).
  Proof.
    intros f. rewrite loop_unfold. unfold mle_pass. cbn [pick bind]. rewrite wg_bo, wg_rb, v_same, wg_vs, wg_rv, a_same.
    destruct wg_as as (r & ->). destruct (wg_ra r) as (r' & ->). rewrite wg_xo.
    unfold vecs. cbn [sx sb sv sa bind].
    assert (Rq : refresh wg_q wg_q = wg_q) by (exact wf_refresh_q). rewrite Rq.
    assert (M : forall b v a b' v' a', moved (wg_q, b, v, a) (wg_q, b', v', a') = Ok (Fin 0)) by (intros; exact wf_moved). rewrite M. cbn [bind].
    unfold ll_s at 1, logpdf at 1. cbn [bind ef_ltb]. rewrite Rltb_t by lra. eexists. split; [|reflexivity]. reflexivity.
  Qed.
  Lemma wg_run : forall g, g <> OtherGradient -> exists mm obs, mr_quality mm = wg_q /\
    mle_run_modeling chi MLE (w_reader wg_ds) no_options (MleOpts (Some g) None None None) =
    do m0 <- mle_solve chi ModeDefault (MleOpts (Some g) None None None) (w_arr wg_ds) (w_arr wg_ds) (mr_quality mm) [0; 1]%nat 2;
    Ok (finish no_options obs m0).
  Proof.
    intros g Hg. destruct wg_mos as (mm & Hm & Eq). destruct wg_reads as (_ & Ha & obs & Ho). exists mm, obs. split; [exact Eq|].
    assert (HH : Forall (fun c : Z => (0 <= c < 2)%Z) (content_id_of_dis_videos (ds_dis wg_ds))) by (cbn; repeat (constructor; [lia|]); constructor).
    rewrite (w_run_mle chi MLE wg_ds (MleOpts (Some g) None None None) mm obs (or_introl eq_refl) ltac:(cbn; congruence) Ha eq_refl Hm Ho eq_refl HH).
    reflexivity.
  Qed.
  Lemma wg_differ : mle_run_modeling chi MLE (w_reader wg_ds) no_options (MleOpts (Some Simplified) None None None) = Err ValueError /\
    exists m, mle_run_modeling chi MLE (w_reader wg_ds) no_options (MleOpts (Some Original) None None None) = Ok m /\ ml_iter m = 1%nat.
  Proof.
    destruct fuel_S as (fu & Hf). split.
    - destruct (wg_run Simplified) as (mm & obs & Eq & E); [discriminate|]. rewrite E, Eq, solve_split. unfold loop_from. rewrite wg_start, Hf.
      change (threshold_of _) with (Fin (1 / 100000000)). change (pdf_of _) with GaussianPdf. change (gradient_of _) with Simplified.
      rewrite wg_pass_s. reflexivity.
    - destruct (wg_run Original) as (mm & obs & Eq & E); [discriminate|]. rewrite E, Eq, solve_split. unfold loop_from. rewrite wg_start, Hf.
      change (threshold_of _) with (Fin (1 / 100000000)). change (pdf_of _) with GaussianPdf. change (gradient_of _) with Original.
      destruct (wg_loop_o fu) as (st & Es & ->). cbn [bind].
      destruct (report_total chi ModeDefault (MleOpts (Some Original) None None None) (w_arr wg_ds) (w_arr wg_ds) [0; 1]%nat 2 st 1 eq_refl) as (m & R).
      rewrite R. cbn [bind]. destruct (report_iter _ _ _ _ _ _ _ _ _ _ R) as [E1 _]. eexists. split; [reflexivity|exact E1].
  Qed.
End Refute.
