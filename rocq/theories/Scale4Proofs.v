(** The log-likelihood on another rating scale. *)
From Coq Require Import String.
From Coq Require Import List ZArith Bool Arith Reals Lra Lia.
From Verif Require Import PyBase Num ExtReal NumPy Dataset Preproc Mos AP Mle SpecMos SpecAp SpecMle BaseProofs ExtRealProofs
  ArrayProofs StepsProofs MosProofs ApProofs Ap2Proofs Eval MleProofs Mle2Proofs Mle3Proofs Mle4Proofs Mle5Proofs Mle6Proofs Mle7Proofs Mle8Proofs Mle9Proofs
  SpecScale ScaleProofs Scale2Proofs Scale3Proofs.
Import ListNotations.
Local Open Scope R_scope.

Section Fit.
  Variable chi : ef -> ef -> ef.
  Variables (k t : R).
  Hypothesis Hk : k <> 0.
  Notation L := (Rabs k).
  Let HL : 0 < L := abs_pos k Hk.

  Section Votes.
    Variables (x x' : arr3 ef) (cids : list nat) (C : nat).
    Hypothesis HX : transformed (rescale k t) x x'.
    Lemma tsum_tr : forall f, tsum x' f = tsum x (fun e i v => f e i (k * v + t)).
    Proof.
      destruct HX as (DE & DS & DR & A). intro f. unfold tsum, SpecAp.vsum. rewrite DE, DS, DR. apply Rsum_map_ext. intros e He. apply in_seq in He.
      apply Rsum_map_ext. intros i Hi. apply in_seq in Hi. apply Rsum_map_ext. intros r Hr. apply in_seq in Hr.
      rewrite A by (unfold inside; lia). rewrite rescale_cases by exact Hk. destruct (at3 x e i r); cbn; try reflexivity; repeat destruct (Rlt_dec _ _); reflexivity.
    Qed.
    Lemma votes_tr : total_votes x' = total_votes x.
    Proof. exact (tsum_tr (fun _ _ _ => 1)). Qed.
    Lemma density_tr : forall v q b w, 0 < w -> log_density (k * v + t) (k * q + t + k * b) (sqrt (L * L * w)) = log_density v (q + b) (sqrt w) - ln L.
    Proof.
      intros v q b w Hw. assert (Hs := sqrt_lt_R0 w Hw). assert (E : sqrt (L * L * w) = L * sqrt w).
      { rewrite sqrt_mult_alt by (apply Rmult_le_pos; lra). rewrite sqrt_square by lra. reflexivity. }
      rewrite E. unfold log_density. rewrite ln_mult by assumption.
      assert (K2 : L * L = k * k) by (rewrite <- Rabs_mult; apply Rabs_pos_eq; apply Rle_0_sqr).
      replace (L * sqrt w * (L * sqrt w)) with (k * k * (sqrt w * sqrt w)) by (rewrite <- K2; ring).
      replace ((k * v + t - (k * q + t + k * b)) * (k * v + t - (k * q + t + k * b))) with (k * k * ((v - (q + b)) * (v - (q + b)))) by ring.
      generalize (ln (sqrt w)) (ln L) (ln (sqrt (2 * PI))). intros. field. split; [apply Rgt_not_eq; exact Hs|exact Hk].
    Qed.
    Lemma lik_tr : forall p, regular x (cid_of cids) p -> log_lik x' (cid_of cids) (scaled_params k t p) = log_lik x (cid_of cids) p - total_votes x * ln L.
    Proof.
      intros p R. unfold log_lik. rewrite tsum_tr. unfold tsum, total_votes. rewrite Rmult_comm, <- Rsum_map_mul, <- Rsum_map_sub. apply Rsum_map_ext. intros e He. apply in_seq in He.
      rewrite <- vsum_const, <- vsum_sub. apply vsum_ext. intros i r v Hi Hr E. cbn [scaled_params pq pb].
      rewrite <- density_tr by (apply (R e i r v); [unfold inside; lia|exact E]). f_equal. f_equal. unfold variance. cbn [scaled_params pv pa]. ring.
    Qed.
  End Votes.

  Lemma or_zeros_sc : forall l n o o', o' = option_map (map (times l)) o -> l <> 0 -> vsc l (or_zeros n o) (or_zeros n o').
  Proof.
    intros l n o o' -> Hl. destruct o as [u|]; cbn [option_map or_zeros]; [reflexivity|]. apply vsc_zeros.
  Qed.
  Lemma fit_sc : forall c (rd rd' : reader ef) a a' kw o o' m m', c = MLE \/ c = MLE_CO \/ c = MLE_SO ->
    rd_arr rd = Ok a -> rd_arr rd' = Ok a' -> finite_votes a -> transformed (rescale k t) a a' -> same_test rd rd' -> plain_votes kw -> same_options k o o' ->
    pdf_of o = GaussianPdf -> mle_run_modeling chi c rd kw o = Ok m -> mle_run_modeling chi c rd' kw o' = Ok m' -> on_scale k t m m' -> proper_fit c rd kw m ->
    fit_on_scale k m m'.
  Proof.
    intros c rd rd' a a' kw o o' m m' Hc Ha Ha' F HT (T1 & T2 & T3) (P1 & P2 & P3 & P4) (G1 & G2 & G3 & G4) GP H H' HS HP.
    destruct (begins_exists chi _ _ _ _ _ H) as (x & cids & C & s & B). destruct (begins_exists chi _ _ _ _ _ H') as (x' & cids' & C' & s' & B').
    destruct (HP _ _ _ _ B) as (FX & NV & p & HH & HG).
    assert (Ek : mle_kwargs c kw = Ok kw) by (destruct Hc as [->|[->| ->]]; reflexivity).
    assert (RJ : kw_rej kw = false). { destruct (run_inv chi _ _ _ _ _ H) as (k2 & pp2 & _ & _ & _ & _ & K1 & K2 & _). assert (k2 = kw) by congruence. subst k2. exact K2. }
    assert (E : transformed (rescale k t) x x' /\ cids' = cids /\ C' = C).
    { destruct B as (k1 & pp & mm & B1 & B2 & -> & B4 & -> & (mx & B6 & ->) & B8). destruct B' as (k1' & pp' & mm' & B1' & B2' & -> & B4' & -> & (mx' & B6' & ->) & B8').
      assert (k1 = kw) by congruence. assert (k1' = kw) by congruence. subst k1 k1'.
      destruct (pre_sc k t Hk rd rd' kw a a' pp Ha Ha' F HT P1 P2 RJ B2) as (pp2 & B2'' & HX & _). assert (pp2 = pp') by congruence. subst pp2.
      split; [exact HX|]. rewrite T2. rewrite T1 in B6'. assert (mx' = mx) by congruence. subst mx'. split; reflexivity. }
    destruct E as (HX & -> & ->). assert (FX' := same_finite k t x x' Hk HX FX).
    assert (F' : finite_votes a') by exact (same_finite k t a a' Hk HT F).
    destruct (c71 chi c rd kw o a x cids C s m Ha F B FX P3 P4 H) as (q & b & v & w & _ & RP).
    destruct (c71 chi c rd' kw o' a' x' cids C s' m' Ha' F' B' FX' P3 P4 H') as (q' & b' & v' & w' & _ & RP').
    assert (E1 := rp_ll _ _ _ _ _ _ _ _ _ _ _ _ _ RP GP p HH HG). rewrite <- G2 in GP.
    destruct HX as (DE & DS & DR & A). assert (HX : transformed (rescale k t) x x') by (repeat split; assumption).
    assert (HLn : L <> 0) by lra.
    assert (HH' := holds_sc k t x x' cids C Hk HX p _ _ _ _ (or_zeros (dS x) (ml_bias m')) (or_zeros (dS x) (ml_incons m')) (or_zeros C (ml_ambiguity m')) HH
      (or_zeros_sc k _ _ _ (on_bias _ _ _ _ HS) Hk) (or_zeros_sc L _ _ _ (on_incons _ _ _ _ HS) HLn) (or_zeros_sc L _ _ _ (on_ambiguity _ _ _ _ HS) HLn)).
    rewrite <- (on_quality _ _ _ _ HS), <- DS in HH'.
    assert (E2 := rp_ll _ _ _ _ _ _ _ _ _ _ _ _ _ RP' GP _ HH' (regular_sc k t x x' cids Hk HX p HG)).
    rewrite (lik_tr x x' cids HX p HG), (votes_tr x x' HX) in E2. rewrite div_ne in E1, E2 by lra.
    assert (EL : ml_ll m' = ef_sub (ml_ll m) (Fin (ln L))).
    { rewrite E1, E2. cbn. f_equal. field. lra. }
    assert (D := on_dof _ _ _ _ HS). split; [exact EL|].
    assert (X1 := rp_aic _ _ _ _ _ _ _ _ _ _ _ _ _ RP). assert (X2 := rp_aic _ _ _ _ _ _ _ _ _ _ _ _ _ RP').
    assert (Y1 := rp_bic _ _ _ _ _ _ _ _ _ _ _ _ _ RP). assert (Y2 := rp_bic _ _ _ _ _ _ _ _ _ _ _ _ _ RP'). rewrite (votes_tr a a' HT) in Y2.
    rewrite D, EL in X2, Y2. rewrite X1, X2, Y1, Y2, E1. generalize (ml_dof m) (ef_ln (Fin (total_votes a))). intros d l.
    split; [generalize (ef_mul (Fin 2) d) | generalize (ef_mul l d)]; intros [r| | |]; cbn; try reflexivity; f_equal; ring.
  Qed.
End Fit.

Lemma scale_factor : forall chi c k (rd rd' : reader ef) a a' kw o o' m, c = MLE \/ c = MLE_CO \/ c = MLE_SO -> k <> 0 ->
  rd_arr rd = Ok a -> rd_arr rd' = Ok a' -> finite_votes a -> transformed (rescale k 0) a a' -> same_test rd rd' -> plain_votes kw -> same_options k o o' ->
  gradient_of o = Simplified \/ gradient_of o = Original -> mle_run_modeling chi c rd kw o = Ok m ->
  exists m', mle_run_modeling chi c rd' kw o' = Ok m' /\ on_scale k 0 m m'.
Proof.
  intros chi c k rd rd' a a' kw o o' m Hc Hk Ha Ha' F HT T P O G H.
  destruct (c141 chi k 0 Hk c rd rd' a a' kw o o' m Hc Ha Ha' F HT T P O) as (m' & R1 & R2 & _); [unfold allowed; tauto|exact H|left; reflexivity|]. eauto.
Qed.
Lemma scale_original : forall chi c k t (rd rd' : reader ef) a a' kw o o' m, c = MLE \/ c = MLE_CO \/ c = MLE_SO -> k <> 0 ->
  rd_arr rd = Ok a -> rd_arr rd' = Ok a' -> finite_votes a -> transformed (rescale k t) a a' -> same_test rd rd' -> plain_votes kw -> same_options k o o' ->
  gradient_of o = Original -> mle_run_modeling chi c rd kw o = Ok m ->
  exists m', mle_run_modeling chi c rd' kw o' = Ok m' /\ on_scale k t m m'.
Proof.
  intros chi c k t rd rd' a a' kw o o' m Hc Hk Ha Ha' F HT T P O G H.
  destruct (c141 chi k t Hk c rd rd' a a' kw o o' m Hc Ha Ha' F HT T P O) as (m' & R1 & R2 & _); [unfold allowed; tauto|exact H|rewrite G; discriminate|]. eauto.
Qed.
Lemma scale_simplified : forall chi c k t (rd rd' : reader ef) a a' kw o o' m, c = MLE \/ c = MLE_CO \/ c = MLE_SO -> k <> 0 ->
  rd_arr rd = Ok a -> rd_arr rd' = Ok a' -> finite_votes a -> transformed (rescale k t) a a' -> same_test rd rd' -> plain_votes kw -> same_options k o o' ->
  gradient_of o = Simplified -> mle_run_modeling chi c rd kw o = Ok m -> stays_regular c rd kw o (ml_iter m) ->
  exists m', mle_run_modeling chi c rd' kw o' = Ok m' /\ on_scale k t m m'.
Proof.
  intros chi c k t rd rd' a a' kw o o' m Hc Hk Ha Ha' F HT T P O G H S.
  destruct (c141 chi k t Hk c rd rd' a a' kw o o' m Hc Ha Ha' F HT T P O) as (m' & R1 & R2 & _); [unfold allowed; tauto|exact H|intros _; right; exact S|]. eauto.
Qed.
Lemma scale_numerical : forall chi c t (rd rd' : reader ef) a a' kw o o' m, c = MLE \/ c = MLE_CO \/ c = MLE_SO ->
  rd_arr rd = Ok a -> rd_arr rd' = Ok a' -> finite_votes a -> transformed (rescale 1 t) a a' -> same_test rd rd' -> plain_votes kw -> same_options 1 o o' ->
  gradient_of o = Numerical -> pdf_of o = GaussianPdf -> mle_run_modeling chi c rd kw o = Ok m ->
  exists m', mle_run_modeling chi c rd' kw o' = Ok m' /\ on_scale 1 t m m' /\ same_fit m m'.
Proof.
  intros chi c t rd rd' a a' kw o o' m Hc Ha Ha' F HT T P O G GP H.
  destruct (c141 chi 1 t R1_neq_R0 c rd rd' a a' kw o o' m Hc Ha Ha' F HT T P O) as (m' & R1 & R2 & R3); [unfold allowed; tauto|exact H|rewrite G; discriminate|].
  exists m'. split; [exact R1|]. split; [exact R2|]. apply R3; [reflexivity|exact GP].
Qed.
Lemma scale_fit : forall chi c k t (rd rd' : reader ef) a a' kw o o' m m', c = MLE \/ c = MLE_CO \/ c = MLE_SO -> k <> 0 ->
  rd_arr rd = Ok a -> rd_arr rd' = Ok a' -> finite_votes a -> transformed (rescale k t) a a' -> same_test rd rd' -> plain_votes kw -> same_options k o o' ->
  pdf_of o = GaussianPdf -> mle_run_modeling chi c rd kw o = Ok m -> mle_run_modeling chi c rd' kw o' = Ok m' -> on_scale k t m m' ->
  proper_fit c rd kw m -> fit_on_scale k m m'.
Proof. intros chi c k t rd rd' a a' kw o o' m m' Hc Hk H1 H2 H3 H4 H5 H6 H7 H8 H9 H10 H11 H12. exact (fit_sc chi k t Hk c rd rd' a a' kw o o' m m' Hc H1 H2 H3 H4 H5 H6 H7 H8 H9 H10 H11 H12). Qed.
