(** Theorems about the projection solver. *)
From Coq Require Import String.
From Coq Require Import List ZArith Bool Arith Reals Lra Lia Permutation.
From Verif Require Import PyBase Num ExtReal NumPy Dataset Preproc Mos AP SpecMos SpecAp
  BaseProofs ExtRealProofs ArrayProofs MosProofs StepsProofs ApProofs Ap2Proofs Ap3Proofs Ap4Proofs Ap5Proofs.
Import ListNotations.
Local Open Scope list_scope.
Local Open Scope R_scope.

(** ** Any input: signs and iteration limits *)
Lemma ef_sqrt_nonneg : forall v, nonneg (ef_sqrt v).
Proof. destruct v; cbn; try exact I. destruct (Rltb r 0); [exact I|apply sqrt_pos]. Qed.
Lemma nanstd_nonneg : forall ddof (l : list ef), nonneg (np_nanstd ddof l).
Proof. intros. unfold np_nanstd. destruct (Nat.leb _ _); [exact I|apply ef_sqrt_nonneg]. Qed.
Lemma inv_nonneg : forall v, nonneg v -> nonneg (ef_div (Fin 1) v).
Proof.
  destruct v; cbn; intro H; try exact I; try lra. destruct (Req_EM_T r 0) as [->|N].
  - destruct (Req_EM_T 1 0); [lra|]. rewrite (proj2 (Rltb_true 0 1)) by lra. exact I.
  - cbn. apply Rlt_le, Rdiv_lt_0_compat; lra.
Qed.
Lemma inv_sqrt_pos_nonneg : forall v, nonneg (inv_sqrt_pos v).
Proof. intro v. apply inv_nonneg. apply ef_sqrt_nonneg. Qed.
Lemma z95_nonneg : forall v, nonneg v -> nonneg (ef_mul (Fin (195996 / 100000)) v).
Proof.
  destruct v; cbn; intro H; try exact I; try contradiction; [apply Rmult_le_pos; lra|].
  unfold ef_infmul. destruct (Req_EM_T (195996 / 100000) 0); [exact I|]. rewrite (proj2 (Rltb_true 0 (195996 / 100000))) by lra. exact I.
Qed.

Section Any.
  Context (chi : ef -> ef -> ef).
  Lemma loop_inv : forall fuel itr (x : arr3 ef) s b e n, ap_loop fuel itr x s b = Ok (e, n) ->
    (exists s' b', ap_pass x s' b' = Ok e /\ ((n < max_itr)%nat -> exists d, sp_norm (map (fun p => ef_sub (fst p) (snd p)) (combine s' (es e))) = Ok d /\ ef_ltb d epsilon = true)) /\
    (itr < n)%nat /\ (n <= fuel + itr)%nat.
  Proof.
    induction fuel as [|f IH]; intros itr x s b e n H; [discriminate|]. cbn [ap_loop] in H.
    destruct (ap_pass x s b) as [e1|] eqn:E1; [|discriminate]. cbn [bind] in H.
    destruct (sp_norm (map (fun p => nsub (fst p) (snd p)) (combine s (es e1)))) as [d|] eqn:E2; [|discriminate]. cbn [bind] in H.
    destruct (nltb d epsilon) eqn:E3.
    - apply StepsProofs.Ok_inj in H. injection H as <- <-. split; [|lia]. exists s, b. split; [exact E1|]. intros _. exists d. split; assumption.
    - destruct (Nat.leb max_itr (S itr)) eqn:E4.
      + apply StepsProofs.Ok_inj in H. injection H as <- <-. split; [|lia]. exists s, b. split; [exact E1|]. intro L. apply Nat.leb_le in E4. lia.
      + destruct (IH _ _ _ _ _ _ H) as (P & L1 & L2). split; [exact P|]. lia.
  Qed.
  Lemma loop_terminates : forall fuel itr (x : arr3 ef) s b, (max_itr <= fuel + itr)%nat -> fuel <> 0%nat -> ap_loop fuel itr x s b <> Err Diverges.
  Proof.
    induction fuel as [|f IH]; intros itr x s b L N; [contradiction|]. cbn [ap_loop].
    unfold ap_pass. cbn [weighed_nanmean_2d bind].
    match goal with |- context [sp_norm ?l] => destruct (sp_norm l) as [d|ex] eqn:E2 end.
    - cbn [bind]. destruct (nltb d epsilon); [discriminate|]. destruct (Nat.leb max_itr (S itr)) eqn:E4; [discriminate|].
      apply Nat.leb_gt in E4. apply IH; lia.
    - cbn [bind]. unfold sp_norm in E2. destruct (existsb _ _); inversion E2. discriminate.
  Qed.

  Lemma solve_any : forall alt force (x x0 : arr3 ef) m, ap_solve chi alt force x x0 = Ok m ->
    (1 <= ap_iter m <= 1000)%nat /\
    Forall nonneg (ap_incons m) /\ Forall nonneg (ap_incons_std m) /\ Forall nonneg (ap_bias_std m) /\ Forall nonneg (ap_quality_std m) /\
    Forall nonneg (ap_scores_std m) /\
    Forall nonneg (ap_quality_lo m) /\ Forall nonneg (ap_quality_hi m) /\ Forall nonneg (ap_bias_lo m) /\ Forall nonneg (ap_bias_hi m).
  Proof.
    intros alt force x x0 m H. unfold ap_solve in H.
    destruct (ap_loop max_itr 0 x _ _) as [[e n]|] eqn:E; [|discriminate]. cbn [bind] in H.
    destruct (loop_inv _ _ _ _ _ _ _ E) as ((s' & b' & P & _) & L1 & L2).
    destruct (zero_mean force (es e) (eb e)) as [s b]. apply StepsProofs.Ok_inj in H. subst m.
    cbn [ap_iter ap_incons ap_incons_std ap_bias_std ap_quality_std ap_scores_std ap_quality_lo ap_quality_hi ap_bias_lo ap_bias_hi].
    assert (Q : Forall nonneg (quality_std alt x (ev e) (evj e))).
    { unfold quality_std. apply Forall_forall. intros v Hv. apply in_map_iff in Hv as (w & <- & _). apply inv_sqrt_pos_nonneg. }
    assert (B : Forall nonneg (bias_std x (ev e))).
    { unfold bias_std. apply Forall_forall. intros v Hv. apply in_map_iff in Hv as (w & <- & _). apply inv_sqrt_pos_nonneg. }
    assert (Z : forall l, Forall nonneg l -> Forall nonneg (map (fun y => nmul z95 y) l)).
    { intros l Hl. apply Forall_forall. intros v Hv. apply in_map_iff in Hv as (w & <- & Hw). rewrite z95_ef. apply z95_nonneg.
      rewrite Forall_forall in Hl. apply Hl. exact Hw. }
    split; [change 1000%nat with max_itr; lia|]. split; [|split; [|split; [exact B|split; [exact Q|split; [|auto 10]]]]].
    - unfold ap_pass in P. cbn [weighed_nanmean_2d bind] in P. apply StepsProofs.Ok_inj in P. rewrite <- P. cbn [ev].
      unfold along0. apply Forall_forall. intros v Hv. apply in_map_iff in Hv as (w & <- & _). apply nanstd_nonneg.
    - unfold inconsistency_std. apply Forall_forall. intros v Hv. apply in_map_iff in Hv as (w & <- & _). apply inv_sqrt_pos_nonneg.
    - unfold along0. apply Forall_forall. intros v Hv. apply in_map_iff in Hv as (w & <- & _). apply nanstd_nonneg.
  Qed.
  Lemma solve_terminates : forall alt force (x x0 : arr3 ef), ap_solve chi alt force x x0 <> Err Diverges.
  Proof.
    intros alt force x x0 H. unfold ap_solve in H.
    destruct (ap_loop max_itr 0 x _ _) as [[e n]|ex] eqn:E.
    - cbn [bind] in H. destruct (zero_mean force (es e) (eb e)). discriminate.
    - cbn [bind] in H. injection H as ->. revert E. apply loop_terminates; [lia|discriminate].
  Qed.
End Any.

(** ** Equivariance *)
Lemma id_permutes : forall n, permutes n (fun k => k).
Proof. intro n. split; auto. Qed.

Section Run.
  Context (chi : ef -> ef -> ef).

  Lemma run_corresponds : forall c (rd rd' : reader ef) f x y pi sg d mu m m',
    rd_arr rd = Ok x -> rd_arr rd' = Ok y -> finite_votes x -> rearranged x y pi sg d -> balanced y d mu ->
    ((0 < dS x)%nat -> mu = Rmean (map d (seq 0 (dS x)))) ->
    ap_run_modeling chi c rd no_options f = Ok m -> ap_run_modeling chi c rd' no_options f = Ok m' ->
    corresponds x y pi sg d mu m m' /\
    length (ap_quality m) = dE x /\ length (ap_quality_std m) = dE x /\ length (ap_quality_lo m) = dE x /\ length (ap_quality_hi m) = dE x /\
    length (ap_bias m) = dS x /\ length (ap_bias_std m) = dS x /\ length (ap_bias_lo m) = dS x /\ length (ap_bias_hi m) = dS x /\
    length (ap_incons m) = dS x /\ length (ap_incons_std m) = dS x /\ length (ap_incons_lo m) = dS x /\ length (ap_incons_hi m) = dS x /\
    length (ap_scores_mean m) = dS x /\ length (ap_scores_std m) = dS x.
  Proof.
    intros c rd rd' f x y pi sg d mu m m' Hx Hy HF HA HB Hmu Hm Hm'.
    destruct (ap_run_inv chi c rd f x Hx m Hm) as (m1 & o & _ & E1 & ->).
    destruct (ap_run_inv chi c rd' f y Hy m' Hm') as (m2 & o' & _ & E2 & ->).
    assert (C := solve_corresponds chi _ _ x y pi sg d mu m1 m2 HF HA HB (fun H _ => Hmu H) E1 E2).
    assert (L := solve_lengths chi _ _ x m1 HF E1). split; [destruct C; constructor; assumption|exact L].
  Qed.

  Lemma run_offset : forall c (rd rd' : reader ef) f x y d mu m m',
    rd_arr rd = Ok x -> rd_arr rd' = Ok y -> finite_votes x -> offset_votes d x y -> balanced y d mu ->
    ((0 < dS x)%nat -> mu = Rmean (map d (seq 0 (dS x)))) ->
    ap_run_modeling chi c rd no_options f = Ok m -> ap_run_modeling chi c rd' no_options f = Ok m' ->
    ap_quality m' = map (affine 1 mu) (ap_quality m) /\
    (forall i, (i < dS x)%nat -> nth i (ap_bias m') NaN = affine 1 (d i - mu) (nth i (ap_bias m) NaN)) /\
    length (ap_bias m') = length (ap_bias m) /\
    (forall i, (i < dS x)%nat -> nth i (ap_scores_mean m') NaN = affine 1 (d i) (nth i (ap_scores_mean m) NaN)) /\
    (forall e i r, inside x e i r -> at3 (ap_recon m') e i r = affine 1 (d i) (at3 (ap_recon m) e i r)) /\
    same_uncertainty m m'.
  Proof.
    intros c rd rd' f x y d mu m m' Hx Hy HF (HE & HS & HR & HAt) HB Hmu Hm Hm'.
    assert (HA : rearranged x y (fun k => k) (fun k => k) d) by (repeat split; auto; apply id_permutes).
    destruct (run_corresponds c rd rd' f x y _ _ d mu m m' Hx Hy HF HA HB Hmu Hm Hm') as (C & L1 & L2 & L3 & L4 & L5 & L6 & L7 & L8 & L9 & L10 & L11 & L12 & L13 & L14).
    split; [rewrite (co_quality _ _ _ _ _ _ _ _ C); apply map_nth_id; exact L1|].
    split; [intros i Hi; rewrite (co_bias _ _ _ _ _ _ _ _ C); rewrite nth_map_seq by exact Hi; reflexivity|].
    split; [rewrite (co_bias _ _ _ _ _ _ _ _ C), map_length, seq_length; lia|].
    split; [intros i Hi; rewrite (co_scores_mean _ _ _ _ _ _ _ _ C); rewrite nth_map_seq by exact Hi; reflexivity|].
    split; [apply (co_recon _ _ _ _ _ _ _ _ C)|].
    destruct (co_quality_ci _ _ _ _ _ _ _ _ C) as (E1 & E2). destruct (co_bias_ci _ _ _ _ _ _ _ _ C) as (E3 & E4).
    destruct (co_incons_ci _ _ _ _ _ _ _ _ C) as (E5 & E6). destruct (co_same _ _ _ _ _ _ _ _ C) as (S1 & S2 & S3 & S4 & S5).
    unfold same_uncertainty. rewrite (co_quality_std _ _ _ _ _ _ _ _ C), E1, E2, (co_bias_std _ _ _ _ _ _ _ _ C), E3, E4, (co_incons _ _ _ _ _ _ _ _ C),
      (co_incons_std _ _ _ _ _ _ _ _ C), E5, E6, (co_scores_std _ _ _ _ _ _ _ _ C). rewrite !reindex_id by assumption. repeat split; assumption.
  Qed.

  Lemma c41 : forall c (rd rd' : reader ef) f a a' k m m',
    rd_arr rd = Ok a -> rd_arr rd' = Ok a' -> finite_votes a -> transformed (affine 1 k) a a' ->
    ap_run_modeling chi c rd no_options f = Ok m -> ap_run_modeling chi c rd' no_options f = Ok m' ->
    ap_quality m' = map (affine 1 k) (ap_quality m) /\ ap_bias m' = ap_bias m /\
    ap_scores_mean m' = map (affine 1 k) (ap_scores_mean m) /\
    (forall e i r, inside a e i r -> at3 (ap_recon m') e i r = affine 1 k (at3 (ap_recon m) e i r)) /\
    same_uncertainty m m'.
  Proof.
    intros c rd rd' f a a' k m m' Ha Ha' HF (HE & HS & HR & HAt) Hm Hm'.
    assert (HB : balanced a' (fun _ => k) k) by (intros e He; apply vsum_const).
    assert (Hmu : (0 < dS a)%nat -> k = Rmean (map (fun _ : nat => k) (seq 0 (dS a)))).
    { intro Hd. unfold Rmean. rewrite Rsum_map_const, map_length, seq_length. field. apply not_0_INR. lia. }
    assert (HO : offset_votes (fun _ => k) a a') by (repeat split; auto).
    assert (HA : rearranged a a' (fun k => k) (fun k => k) (fun _ => k)) by (repeat split; auto; apply id_permutes).
    destruct (run_offset c rd rd' f a a' (fun _ => k) k m m' Ha Ha' HF HO HB Hmu Hm Hm') as (Q & _ & _ & _ & R & U).
    destruct (run_corresponds c rd rd' f a a' _ _ (fun _ => k) k m m' Ha Ha' HF HA HB Hmu Hm Hm') as (C & L1 & L2 & L3 & L4 & L5 & L6 & L7 & L8 & L9 & L10 & L11 & L12 & L13 & L14).
    split; [exact Q|]. split.
    - rewrite (co_bias _ _ _ _ _ _ _ _ C). transitivity (reindex (dS a) (fun k => k) (ap_bias m)); [|apply reindex_id; exact L5]. unfold reindex. apply map_ext. intro i.
      destruct (nth i (ap_bias m) NaN); cbn; try reflexivity. f_equal. ring.
    - split; [|split; [exact R|exact U]]. rewrite (co_scores_mean _ _ _ _ _ _ _ _ C). apply map_nth_id. exact L13.
  Qed.

  Lemma complete_balanced : forall a d, complete_votes a -> balanced a d (Rmean (map d (seq 0 (dS a)))).
  Proof.
    intros a d HC e He.
    assert (E : forall g, vsum a e (fun i _ => g i) = INR (dR a) * Rsum (map g (seq 0 (dS a)))).
    { intro g. unfold vsum. rewrite <- Rsum_map_mul. apply Rsum_map_ext. intros i Hi. apply in_seq in Hi.
      rewrite <- (seq_length (dR a) 0) at 2. rewrite <- (Rsum_map_const nat (g i) (seq 0 (dR a))). apply Rsum_map_ext. intros r Hr. apply in_seq in Hr.
      specialize (HC e i r ltac:(repeat split; lia)). destruct (at3 a e i r); cbn in *; try contradiction. reflexivity. }
    unfold vcount. rewrite !E. rewrite Rsum_map_const, seq_length. unfold Rmean. rewrite map_length, seq_length.
    destruct (Nat.eq_dec (dS a) 0) as [Z|Z].
    - rewrite Z. cbn [seq map]. change (Rsum []) with 0. change (INR 0) with 0. unfold Rdiv. ring.
    - field. apply not_0_INR. exact Z.
  Qed.
  Lemma complete_finite : forall a, complete_votes a -> finite_votes a.
  Proof. intros a H e i r HI. specialize (H e i r HI). destruct (at3 a e i r); cbn in *; auto. Qed.
  Lemma offset_complete : forall d a a', complete_votes a -> offset_votes d a a' -> complete_votes a'.
  Proof.
    intros d a a' H (HE & HS & HR & HAt) e i r (He & Hi & Hr). assert (HI : inside a e i r) by (repeat split; lia).
    rewrite HAt by exact HI. specialize (H e i r HI). destruct (at3 a e i r); cbn in *; auto.
  Qed.
  Lemma c42 : forall c (rd rd' : reader ef) f a a' d m m',
    rd_arr rd = Ok a -> rd_arr rd' = Ok a' -> complete_votes a -> offset_votes d a a' ->
    ap_run_modeling chi c rd no_options f = Ok m -> ap_run_modeling chi c rd' no_options f = Ok m' ->
    let mu := Rmean (map d (seq 0 (dS a))) in
    ap_quality m' = map (affine 1 mu) (ap_quality m) /\
    (forall i, (i < dS a)%nat -> nth i (ap_bias m') NaN = affine 1 (d i - mu) (nth i (ap_bias m) NaN)) /\
    length (ap_bias m') = length (ap_bias m) /\
    (forall i, (i < dS a)%nat -> nth i (ap_scores_mean m') NaN = affine 1 (d i) (nth i (ap_scores_mean m) NaN)) /\
    (forall e i r, inside a e i r -> at3 (ap_recon m') e i r = affine 1 (d i) (at3 (ap_recon m) e i r)) /\
    same_uncertainty m m'.
  Proof.
    intros c rd rd' f a a' d m m' Ha Ha' HC HO Hm Hm' mu.
    assert (HC' := offset_complete d a a' HC HO). assert (HS : dS a' = dS a) by apply HO.
    assert (HB := complete_balanced a' d HC'). rewrite HS in HB.
    apply (run_offset c rd rd' f a a' d mu m m'); auto. apply complete_finite. exact HC.
  Qed.

  Lemma c43 : forall c (rd rd' : reader ef) f a a' pi sg m m',
    rd_arr rd = Ok a -> rd_arr rd' = Ok a' -> finite_votes a -> permutes (dE a) pi -> permutes (dS a) sg ->
    dE a' = dE a -> dS a' = dS a -> dR a' = dR a -> (forall e i r, inside a e i r -> at3 a' e i r = at3 a (pi e) (sg i) r) ->
    ap_run_modeling chi c rd no_options f = Ok m -> ap_run_modeling chi c rd' no_options f = Ok m' ->
    (let re := reindex (dE a) pi in
     ap_quality m' = re (ap_quality m) /\ ap_quality_std m' = re (ap_quality_std m) /\ ap_quality_lo m' = re (ap_quality_lo m) /\ ap_quality_hi m' = re (ap_quality_hi m)) /\
    (let re := reindex (dS a) sg in
     ap_bias m' = re (ap_bias m) /\ ap_bias_std m' = re (ap_bias_std m) /\ ap_bias_lo m' = re (ap_bias_lo m) /\ ap_bias_hi m' = re (ap_bias_hi m) /\
     ap_incons m' = re (ap_incons m) /\ ap_incons_std m' = re (ap_incons_std m) /\ ap_incons_lo m' = re (ap_incons_lo m) /\ ap_incons_hi m' = re (ap_incons_hi m) /\
     ap_scores_mean m' = re (ap_scores_mean m) /\ ap_scores_std m' = re (ap_scores_std m)) /\
    (forall e i r, inside a e i r -> at3 (ap_recon m') e i r = at3 (ap_recon m) (pi e) (sg i) r) /\
    ap_iter m' = ap_iter m /\ ap_dof m' = ap_dof m /\ ap_ll m' = ap_ll m /\ ap_aic m' = ap_aic m /\ ap_bic m' = ap_bic m.
  Proof.
    intros c rd rd' f a a' pi sg m m' Ha Ha' HF Hpi Hsg HE HS HR HAt Hm Hm'.
    assert (A0 : forall v, affine 1 0 v = v) by (destruct v; cbn; try reflexivity; f_equal; ring).
    assert (HA : rearranged a a' pi sg (fun _ => 0)).
    { split; [exact Hpi|]. split; [exact Hsg|]. repeat split; auto. intros. rewrite A0. apply HAt. assumption. }
    assert (HB : balanced a' (fun _ => 0) 0) by (intros e He; apply vsum_const).
    assert (Hmu : (0 < dS a)%nat -> 0 = Rmean (map (fun _ : nat => 0) (seq 0 (dS a)))).
    { intro Hd. unfold Rmean. rewrite Rsum_zeros. unfold Rdiv. ring. }
    destruct (run_corresponds c rd rd' f a a' pi sg _ 0 m m' Ha Ha' HF HA HB Hmu Hm Hm') as (C & _).
    destruct (co_quality_ci _ _ _ _ _ _ _ _ C) as (E1 & E2). destruct (co_bias_ci _ _ _ _ _ _ _ _ C) as (E3 & E4).
    destruct (co_incons_ci _ _ _ _ _ _ _ _ C) as (E5 & E6). destruct (co_recon _ _ _ _ _ _ _ _ C) as (_ & _ & _ & RC).
    assert (S := co_same _ _ _ _ _ _ _ _ C).
    cbv zeta. split; [|split; [|split; [|exact S]]].
    - split; [rewrite (co_quality _ _ _ _ _ _ _ _ C); unfold reindex; apply map_ext; intro; apply A0|].
      split; [apply (co_quality_std _ _ _ _ _ _ _ _ C)|]. auto.
    - split; [rewrite (co_bias _ _ _ _ _ _ _ _ C); unfold reindex; apply map_ext; intro i; rewrite Rminus_0_r; apply A0|].
      split; [apply (co_bias_std _ _ _ _ _ _ _ _ C)|]. split; [exact E3|]. split; [exact E4|].
      split; [apply (co_incons _ _ _ _ _ _ _ _ C)|]. split; [apply (co_incons_std _ _ _ _ _ _ _ _ C)|]. split; [exact E5|]. split; [exact E6|].
      split; [rewrite (co_scores_mean _ _ _ _ _ _ _ _ C); unfold reindex; apply map_ext; intro; apply A0|apply (co_scores_std _ _ _ _ _ _ _ _ C)].
    - intros e i r HI. rewrite (RC e i r HI). apply A0.
  Qed.
End Run.
