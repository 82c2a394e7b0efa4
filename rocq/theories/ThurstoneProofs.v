(** Proofs about the maximum of the Thurstone likelihood (C126). *)
From Coq Require Import List ZArith Bool Arith Reals Lia Lra Classical.
From Coquelicot Require Import Coquelicot.
From Verif Require Import PyBase Num ExtReal ExtRealProofs NumPy ArrayProofs SpecMos PairedComp SpecBt BtProofs Bt2Proofs Bt3Proofs Bt4Proofs NormalCdf SpecBtLimit BtLimitProofs.
Import ListNotations.
Local Open Scope list_scope.
Local Open Scope R_scope.

(** ** The tail of the normal distribution *)
Lemma rest_bound : forall x, rest x <= 2 * bell x.
Proof.
  intros x. unfold rest. replace (2 * bell x) with (RInt (fun _ => 2 * bell x) 0 1).
  - apply RInt_le; [lra|apply ker_int|apply (ex_RInt_const (V := R_NormedModule))|]. intros t _. unfold ker, bell.
    assert (I : / (1 + t * t) <= 1) by (rewrite <- Rinv_1; apply Rinv_le_contravar; nra). assert (I0 : 0 < / (1 + t * t)) by (apply Rinv_0_lt_compat; nra).
    assert (E : exp (- (x * x) * (1 + t * t) / 2) <= exp (- (x * x) / 2)) by (apply exp_le; nra).
    assert (P := exp_pos (- (x * x) * (1 + t * t) / 2)). assert (P2 := exp_pos (- (x * x) / 2)). nra.
  - rewrite (RInt_const (V := R_CompleteNormedModule)). change ((1 - 0) * (2 * bell x) = 2 * bell x). ring.
Qed.
Lemma area_nonneg : forall x, 0 <= x -> 0 <= area x.
Proof. intros x H. unfold area. apply RInt_ge_0; [assumption|apply bell_int|]. intros t _. left. apply exp_pos. Qed.
Lemma normal_tail : forall x, 0 < x -> normal (- x) <= 2 / (x * x).
Proof.
  intros x Hx. assert (T := total_const x). assert (A := area_nonneg x ltac:(lra)). assert (B := rest_bound x). assert (P := PI_RGT_0).
  assert (Ab := area_bound x). rewrite Rabs_pos_eq in Ab by assumption.
  set (s := sqrt (2 * PI)) in *. assert (Hs : 0 < s) by (apply sqrt_lt_R0; lra). assert (SS : s * s = 2 * PI) by (apply sqrt_sqrt; lra).
  unfold normal. rewrite area_odd. fold s.
  assert (E : bell x <= 2 / (x * x)).
  { unfold bell. replace (- (x * x) / 2) with (- (x * x / 2)) by field. rewrite exp_Ropp. assert (X : 0 < x * x) by nra.
    assert (Y : 1 + x * x / 2 < exp (x * x / 2)) by (apply exp_ineq1; lra).
    replace (2 / (x * x)) with (/ (x * x / 2)) by (field; lra). apply Rinv_le_contravar; lra. }
  (* (s/2 - area)(s/2 + area) = rest *)
  assert (Q : (s / 2 - area x) * (s / 2 + area x) = rest x). { replace ((s / 2 - area x) * (s / 2 + area x)) with (s * s / 4 - area x * area x) by field. rewrite SS. lra. }
  assert (S2 : 2 <= s). { apply Rnot_lt_le. intro L. generalize PI2_1. nra. }
  assert (R1 : s / 2 - area x <= rest x) by nra.
  replace (1 / 2 + - area x / s) with ((s / 2 - area x) / s) by (field; lra).
  apply Rmult_le_reg_r with s; [assumption|]. unfold Rdiv at 1. rewrite Rmult_assoc, Rinv_l by lra.
  assert (Z : 0 < 2 / (x * x)) by (apply Rdiv_lt_0_compat; nra). nra.
Qed.

Section Normal.
  Variable F : R -> R.
  Hypothesis HF : normal_cdf F.
  Let Fp : forall x, 0 < F x. Proof. intro x. apply HF. Qed.
  Let FD : forall x, derivable_pt_lim F x (gauss x). Proof. apply HF. Qed.

  Lemma F_normal : forall x, F x = normal x.
  Proof.
    assert (H0 : F 0 = 1 / 2). { assert (S := proj1 (proj2 HF) 0). rewrite Ropp_0 in S. lra. }
    assert (N0 : normal 0 = 1 / 2). { assert (S := proj1 (proj2 normal_is_cdf) 0). rewrite Ropp_0 in S. lra. }
    assert (D : forall x, derivable_pt_lim (fun t => F t - normal t) x (gauss x - gauss x)).
    { intro x. apply (derivable_pt_lim_minus F normal); [apply FD|apply normal_is_cdf]. }
    intro x. destruct (Rtotal_order x 0) as [L|[->|L]]; [| lra |].
    - destruct (MVT_cor2 (fun t => F t - normal t) (fun t => gauss t - gauss t) x 0 L (fun c _ => D c)) as (c & E & _). lra.
    - destruct (MVT_cor2 (fun t => F t - normal t) (fun t => gauss t - gauss t) 0 x L (fun c _ => D c)) as (c & E & _). lra.
  Qed.

  (** ** Mills *)
  Let k (z : R) : R := z * F z + gauss z.
  Lemma k_deriv : forall z, derivable_pt_lim k z (F z).
  Proof.
    intro z. unfold k. eapply dlim_eq.
    - apply (dlim_plus (fun z => z * F z) gauss); [apply (derivable_pt_lim_mult id F z 1 (gauss z)); [apply derivable_pt_lim_id|apply FD]|apply dlim_gauss].
    - unfold id. ring.
  Qed.
  Lemma k_mono : forall x y, x < y -> k x < k y.
  Proof. intros x y L. destruct (MVT_cor2 k F x y L (fun c _ => k_deriv c)) as (c & E & _). assert (P := Fp c). nra. Qed.
  Lemma k_pos : forall z, 0 < z * F z + gauss z.
  Proof.
    intro z. apply Rnot_le_lt. intro H. set (z1 := Rmin z 0 - 1). assert (Z1 : z1 < z) by (unfold z1; generalize (Rmin_l z 0); lra). assert (Z2 : z1 <= -1) by (unfold z1; generalize (Rmin_r z 0); lra).
    assert (K1 := k_mono z1 z Z1). fold (k z) in H. set (c := - k z1). assert (Hc : 0 < c) by (unfold c; lra).
    set (x := - z1 + 1 + 2 / c). assert (P2 : 0 < 2 / c) by (apply Rdiv_lt_0_compat; lra).
    assert (Hx : 0 < x) by (unfold x; lra). assert (K2 := k_mono (- x) z1 ltac:(unfold x; lra)). unfold k at 1 in K2.
    assert (T := normal_tail x Hx). rewrite <- F_normal in T. assert (G := gauss_pos (- x)).
    assert (U : x * F (- x) <= 2 / x).
    { apply (Rmult_le_compat_l x) in T; [|lra]. replace (x * (2 / (x * x))) with (2 / x) in T by (field; lra). exact T. }
    assert (V : 2 / x < c). { apply Rmult_lt_reg_r with (x / c); [apply Rdiv_lt_0_compat; assumption|].
      replace (2 / x * (x / c)) with (2 / c) by (field; lra). replace (c * (x / c)) with x by (field; lra). unfold x. lra. }
    unfold c in V. lra.
  Qed.
  Lemma score_decreasing : forall x y, x < y -> score_ F y < score_ F x.
  Proof.
    intros x y L. destruct (MVT_cor2 (score_ F) (curvature F) x y L) as (c & E & _).
    - intros c _. apply dlim_score. exact HF.
    - assert (N : curvature F c < 0).
      { assert (Pc := Fp c). assert (G := gauss_pos c). assert (K := k_pos c). unfold curvature.
        replace ((- c * F c * gauss c - gauss c * gauss c) / (F c * F c)) with (- ((c * F c + gauss c) * gauss c / (F c * F c))) by (field; lra).
        assert (0 < (c * F c + gauss c) * gauss c / (F c * F c)) by (apply Rdiv_lt_0_compat; apply Rmult_lt_0_compat; assumption). lra. }
      nra.
  Qed.
  Lemma lnF_deriv : forall z, derivable_pt_lim (fun t => ln (F t)) z (score_ F z).
  Proof. intro z. unfold score_. apply dlim_ln; [apply Fp|apply FD]. Qed.
  Lemma tangent : forall x y, ln (F y) <= ln (F x) + score_ F x * (y - x) /\ (x <> y -> ln (F y) < ln (F x) + score_ F x * (y - x)).
  Proof.
    intros x y. assert (S : x <> y -> ln (F y) < ln (F x) + score_ F x * (y - x)).
    { intro N. destruct (Rtotal_order x y) as [L|[->|L]]; [|contradiction|].
      - destruct (MVT_cor2 (fun t => ln (F t)) (score_ F) x y L (fun c _ => lnF_deriv c)) as (c & E & Hc). assert (D := score_decreasing x c (proj1 Hc)). nra.
      - destruct (MVT_cor2 (fun t => ln (F t)) (score_ F) y x L (fun c _ => lnF_deriv c)) as (c & E & Hc). assert (D := score_decreasing c x (proj2 Hc)). nra. }
    split; [|exact S]. destruct (Req_dec x y) as [->|N]; [lra|]. left. apply S, N.
  Qed.

  (** ** The likelihood *)
  Lemma th_diff : forall m w v u, total m (fun i => total m (fun j => w i j * (ln (F (u i - u j)) - ln (F (v i - v j))))) = th_likelihood F m w u - th_likelihood F m w v.
  Proof. intros. unfold th_likelihood. rewrite <- total_sub. apply total_ext. intros i _. rewrite <- total_sub. apply total_ext. intros. ring. Qed.
  Lemma delta_sum : forall m l (d : nat -> R), (l < m)%nat -> total m (fun i => d i * delta l i) = d l.
  Proof.
    intros m l d Hl. rewrite <- (total_delta m l d Hl). apply total_ext. intros i _. unfold delta. rewrite Nat.eqb_sym. ring.
  Qed.
  Lemma grad_pairing : forall m w v d, total m (fun i => d i * th_grad F m w v i) = total m (fun a => total m (fun b => w a b * (score_ F (v a - v b) * (d a - d b)))).
  Proof.
    intros m w v d. unfold th_grad.
    rewrite (total_ext m _ (fun i => total m (fun a => d i * total m (fun b => w a b * ((delta a i - delta b i) * score_ F (v a - v b)))))) by (intros; rewrite total_mul; reflexivity).
    rewrite total_swap. apply total_ext. intros a Ha.
    rewrite (total_ext m _ (fun i => total m (fun b => d i * (w a b * ((delta a i - delta b i) * score_ F (v a - v b)))))) by (intros; rewrite total_mul; reflexivity).
    rewrite total_swap. apply total_ext. intros b Hb.
    rewrite (total_ext m _ (fun i => (w a b * score_ F (v a - v b)) * (d i * delta a i - d i * delta b i))) by (intros; ring).
    rewrite total_mul, total_sub, !delta_sum by assumption. ring.
  Qed.
  Lemma stationary_grad : forall m w v, stationary m (th_likelihood F m w) v <-> forall i, (i < m)%nat -> th_grad F m w v i = 0.
  Proof.
    intros m w v. split; intros H i Hi.
    - apply (partial_unique _ _ _ _ _ (th_partial F HF m w v i) (H i Hi)).
    - rewrite <- (H i Hi). apply th_partial. exact HF.
  Qed.
  Lemma gain_terms : forall m w v u, nonneg_counts m w -> (forall i, (i < m)%nat -> th_grad F m w v i = 0) -> 
    0 = total m (fun a => total m (fun b => w a b * (score_ F (v a - v b) * ((u a - v a) - (u b - v b))))).
  Proof.
    intros m w v u Hw Hg. rewrite <- (grad_pairing m w v (fun i => u i - v i)).
    rewrite (total_ext m _ (fun _ => 0 * 0)); [rewrite total_mul; ring|]. intros i Hi. rewrite (Hg i Hi). ring.
  Qed.
  Lemma stationary_max : forall m w v, nonneg_counts m w -> stationary m (th_likelihood F m w) v -> most_likely_scores F m w v.
  Proof.
    intros m w v Hw Hs u. rewrite stationary_grad in Hs. assert (G := gain_terms m w v u Hw Hs).
    assert (B : total m (fun i => total m (fun j => w i j * (ln (F (u i - u j)) - ln (F (v i - v j))))) <= total m (fun a => total m (fun b => w a b * (score_ F (v a - v b) * ((u a - v a) - (u b - v b)))))).
    { apply total_le. intros i Hi. apply total_le. intros j Hj. apply Rmult_le_compat_l; [apply Hw; assumption|].
      generalize (proj1 (tangent (v i - v j) (u i - u j))). replace (u i - v i - (u j - v j)) with (u i - u j - (v i - v j)) by ring. lra. }
    rewrite th_diff in B. lra.
  Qed.
  Lemma max_stationary : forall m w v, most_likely_scores F m w v -> stationary m (th_likelihood F m w) v.
  Proof.
    intros m w v M i Hi. assert (D := th_partial F HF m w v i). unfold partial in *.
    assert (Z : th_grad F m w v i = 0); [|rewrite Z in D; exact D].
    set (f := fun t => th_likelihood F m w (upd v i t)) in *.
    assert (pr : derivable_pt f (v i)) by (exists (th_grad F m w v i); exact D).
    assert (E := derive_pt_eq_0 f (v i) _ pr D). rewrite <- E.
    apply (deriv_maximum f (v i - 1) (v i + 1)); [lra|lra|]. intros x _ _. unfold f.
    replace (th_likelihood F m w (upd v i (v i))) with (th_likelihood F m w v); [apply M|].
    unfold th_likelihood. apply total_ext. intros a _. apply total_ext. intros b _. rewrite !upd_id. reflexivity.
  Qed.
  Lemma c126_maximum : forall m w v, nonneg_counts m w -> (stationary m (th_likelihood F m w) v <-> most_likely_scores F m w v).
  Proof. intros m w v Hw. split; [apply stationary_max; assumption|apply max_stationary]. Qed.
  Lemma c126_unique : forall m w v u, nonneg_counts m w -> connected m w -> most_likely_scores F m w v -> most_likely_scores F m w u ->
    exists c, forall i, (i < m)%nat -> u i = v i + c.
  Proof.
    intros m w v u Hw Hc Mv Mu. assert (Hs := max_stationary m w v Mv). rewrite stationary_grad in Hs. assert (G := gain_terms m w v u Hw Hs).
    assert (E : forall i j, (i < m)%nat -> (j < m)%nat -> 0 < w i j -> u i - v i = u j - v j).
    { intros i j Hi Hj W. destruct (Req_dec (v i - v j) (u i - u j)) as [Q|Q]; [lra|exfalso].
      set (T := fun a b => w a b * (score_ F (v a - v b) * ((u a - v a) - (u b - v b))) - w a b * (ln (F (u a - u b)) - ln (F (v a - v b)))).
      assert (N : forall a b, (a < m)%nat -> (b < m)%nat -> 0 <= T a b).
      { intros a b Ha Hb. unfold T. generalize (proj1 (tangent (v a - v b) (u a - u b))) (Hw a b Ha Hb). replace (u a - v a - (u b - v b)) with (u a - u b - (v a - v b)) by ring. nra. }
      assert (S : 0 < T i j).
      { unfold T. generalize (proj2 (tangent (v i - v j) (u i - u j)) Q). replace (u i - v i - (u j - v j)) with (u i - u j - (v i - v j)) by ring. nra. }
      assert (P : 0 < total m (fun a => total m (fun b => T a b))).
      { apply (total_pos m _ i Hi); [intros a Ha; apply total_nonneg; intros; apply N; assumption|]. apply (total_pos m (T i) j Hj); [intros; apply N; assumption|exact S]. }
      unfold T in P. rewrite (total_ext m _ (fun a => total m (fun b => w a b * (score_ F (v a - v b) * ((u a - v a) - (u b - v b)))) - total m (fun b => w a b * (ln (F (u a - u b)) - ln (F (v a - v b)))))) in P by (intros; rewrite total_sub; reflexivity).
      rewrite total_sub, <- G, th_diff in P. generalize (Mu v). lra. }
    destruct m as [|m']; [exists 0; intros; lia|]. set (m := S m') in *. exists (u 0%nat - v 0%nat). intros i Hi.
    assert (A := Hc 0%nat i ltac:(unfold m; lia) Hi).
    assert (Q := spread m (games w) (fun j => u j - v j = u 0%nat - v 0%nat)). cbv beta in Q. rewrite <- (Q) with (i := 0%nat) (j := i); [ring| |exact A|reflexivity].
    intros a b Ha Hb Ea Gab. rewrite <- Ea. unfold games in Gab. generalize (Hw a b Ha Hb) (Hw b a Hb Ha). intros W1 W2.
    destruct (Rlt_dec 0 (w a b)) as [L|L]; [symmetry; apply E; assumption|]. apply E; [assumption|assumption|lra].
  Qed.

  (** ** The objective *)
  Variable cdf : ef -> ef.
  Hypothesis HC : computes cdf F.
  Lemma flat_total : forall m (f : nat -> nat -> ef) g, (forall i j, (i < m)%nat -> (j < m)%nat -> f i j = Fin (g i j)) ->
    np_sum (flat_map (fun i => map (f i) (seq 0 m)) (seq 0 m)) = Fin (total m (fun i => total m (g i))).
  Proof.
    intros m f g H. rewrite flat_sum. rewrite (np_sum_total_ext m _ (fun i => total m (g i))); [reflexivity|].
    intros i Hi. apply np_sum_total_ext. intros j Hj. apply H; assumption.
  Qed.
  Lemma c126_objective : forall a m w v, (0 < m)%nat -> counts a m w -> th_nll cdf a (vec m v) = Fin (-2 * softened F (1 / 100000000 / INR m) m w v).
  Proof.
    intros a m w v Hm (A0 & A1 & H). unfold th_nll. rewrite A0. set (d := 1 / 100000000 / INR m).
    assert (M1 : 0 < INR m) by (apply lt_0_INR; lia). assert (Hd : 0 < d) by (unfold d; apply Rdiv_lt_0_compat; lra).
    assert (Ed : ndiv (ndec 1 100000000) (nofnat m) = Fin d).
    { rewrite nofnat_ef. change (ndec 1 100000000) with (@pc_thr ef Num_ef). rewrite pc_thr_ef. efc. rewrite ef_div_Fin by lra. reflexivity. }
    rewrite Ed. rewrite (flat_total m _ (fun i j => w i j * ln (F (v i - v j) + d) + w j i * ln (F (v j - v i) + d))).
    - efc. cbn [ef_neg]. f_equal. unfold softened.
      rewrite (total_ext m _ (fun i => total m (fun j => w i j * ln (F (v i - v j) + d)) + total m (fun j => w j i * ln (F (v j - v i) + d)))) by (intros; rewrite total_add; reflexivity).
      rewrite total_add. rewrite (total_swap m m (fun i j => w j i * ln (F (v j - v i) + d))). ring.
    - intros i j Hi Hj. unfold th_d. rewrite !vat_vec, !H by assumption. efc. rewrite !ef_sub_Fin, !HC. cbn [ef_add].
      assert (P1 := Fp (v i - v j)). assert (P2 := Fp (v j - v i)). assert (L : forall x, 0 < x -> ef_ln (Fin x) = Fin (ln x)) by (intros x Hx; exact (ln_Fin x Hx)).
      rewrite !L by lra. cbn [ef_mul ef_add]. reflexivity.
  Qed.
  Lemma c126_gap : forall d m w v, 0 < d -> nonneg_counts m w ->
    th_likelihood F m w v <= softened F d m w v <= th_likelihood F m w v + d * total m (fun i => total m (fun j => w i j / F (v i - v j))).
  Proof.
    intros d m w v Hd Hw. unfold th_likelihood, softened. split.
    - apply total_le. intros i Hi. apply total_le. intros j Hj. apply Rmult_le_compat_l; [apply Hw; assumption|]. apply ln_le_mono; [apply Fp|lra].
    - rewrite <- total_mul, <- total_add. apply total_le. intros i Hi. rewrite <- total_mul, <- total_add. apply total_le. intros j Hj.
      assert (P := Fp (v i - v j)). set (x := F (v i - v j)) in *. assert (L := ln_le ((x + d) / x) ltac:(apply Rdiv_lt_0_compat; lra)). rewrite ln_div in L by lra.
      replace ((x + d) / x - 1) with (d / x) in L by (field; lra). assert (W := Hw i j Hi Hj).
      replace (d * (w i j / x)) with (w i j * (d / x)) by (field; lra). rewrite <- Rmult_plus_distr_l. apply Rmult_le_compat_l; lra.
  Qed.
End Normal.
