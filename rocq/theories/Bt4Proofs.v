(** Thurstone: both formulas agree; where they are the second derivatives. *)
From Coq Require Import List ZArith Bool Arith Reals Lia Lra Permutation FunctionalExtensionality.
From Verif Require Import PyBase Num ExtReal ExtRealProofs NumPy ArrayProofs SpecMos PairedComp SpecBt BtProofs Bt2Proofs Bt3Proofs.
Import ListNotations.
Local Open Scope list_scope.
Local Open Scope R_scope.

Lemma sqrt_2pi_pos : 0 < sqrt (2 * PI).
Proof. apply sqrt_lt_R0. generalize PI_RGT_0. lra. Qed.
Lemma gauss_pos : forall x, 0 < gauss x.
Proof. intros x. unfold gauss. apply Rdiv_lt_0_compat; [apply exp_pos|apply sqrt_2pi_pos]. Qed.
Lemma gauss_even : forall x, gauss (- x) = gauss x.
Proof. intros x. unfold gauss. replace (- x * - x) with (x * x) by ring. reflexivity. Qed.
Lemma pdf_Fin : forall x, pdf (Fin x) = Fin (gauss x).
Proof.
  intros x. unfold pdf, nsq, gauss. efc. change npi with (Fin PI). change (nofZ 2) with (Fin 2).
  cbn [ef_mul ef_neg]. assert (S := sqrt_2pi_pos). rewrite ef_sqrt_Fin by (generalize PI_RGT_0; lra).
  rewrite ef_div_Fin by lra. cbn [ef_exp]. rewrite ef_div_Fin by lra. reflexivity.
Qed.

Section Th.
  Variables (F : R -> R) (cdf : ef -> ef).
  Hypothesis HF : normal_cdf F.
  Hypothesis HC : computes cdf F.

  Lemma F_pos : forall x, 0 < F x. Proof. intro x. apply HF. Qed.

  Lemma th_simple_Fin : forall a m w v i j, counts a m w -> (i < m)%nat -> (j < m)%nat ->
    th_simple cdf a (vec m v) i j = Fin (games w i j * curvature F (v i - v j)).
  Proof.
    intros a m w v i j Ha Hi Hj. unfold th_simple, th_d. rewrite (played_Fin a m w) by assumption.
    rewrite !vat_vec by assumption. efc. rewrite ef_sub_Fin, HC, pdf_Fin. unfold nsq. efc. cbn [ef_mul ef_neg].
    rewrite ef_sub_Fin. cbn [ef_mul]. assert (P := F_pos (v i - v j)). rewrite ef_div_Fin by nra. f_equal. unfold curvature. field. lra.
  Qed.
  Lemma th_full_Fin : forall a m w v i j, counts a m w -> (i < m)%nat -> (j < m)%nat ->
    th_full cdf a (vec m v) i j = Fin (games w i j * curvature F (v i - v j)).
  Proof.
    intros a m w v i j (E0 & E1 & H) Hi Hj. unfold th_full, th_d. rewrite !H by assumption.
    rewrite !vat_vec by assumption. efc. rewrite ef_sub_Fin, HC, pdf_Fin. unfold nsq. efc. cbn [ef_mul ef_neg].
    rewrite !ef_sub_Fin. cbn [ef_mul]. assert (P := F_pos (v i - v j)). rewrite !ef_div_Fin by nra. cbn [ef_add].
    f_equal. unfold curvature, games. field. lra.
  Qed.
  Lemma th_lbda_Fin : forall b a m w v i k, counts a m w -> (i < m)%nat -> (k < m)%nat ->
    th_lbda cdf b a (vec m v) i k = Fin (- (games w i k * curvature F (v i - v k)) +
      delta i k * total m (fun j => games w i j * curvature F (v i - v j))).
  Proof.
    intros b a m w v i k Ha Hi Hk. unfold th_lbda.
    assert (T : forall j l, (j < m)%nat -> (l < m)%nat -> (if b then th_simple cdf a (vec m v) else th_full cdf a (vec m v)) j l = Fin (games w j l * curvature F (v j - v l))).
    { intros j l Hj Hl. destruct b; [apply th_simple_Fin|apply th_full_Fin]; assumption. }
    rewrite T by assumption. efc. cbn [ef_neg]. unfold diag, delta. destruct (Nat.eqb i k).
    - destruct Ha as (E0 & E1 & _). rewrite E1. rewrite (np_sum_total_ext m _ (fun j => games w i j * curvature F (v i - v j))).
      + cbn [ef_add]. f_equal. ring.
      + intros j Hj. apply T; assumption.
    - unfold nzero. efc. cbn [ef_add]. f_equal. ring.
  Qed.

  Lemma th_agree : forall a m w v i k, counts a m w -> (i < m)%nat -> (k < m)%nat ->
    exists x, th_lbda cdf true a (vec m v) i k = Fin x /\ th_lbda cdf false a (vec m v) i k = Fin x.
  Proof. intros a m w v i k Ha Hi Hk. eexists. split; apply (th_lbda_Fin _ a m w); assumption. Qed.

  Lemma bordered_ext : forall m (f g : nat -> nat -> ef), (forall i j, (i < m)%nat -> (j < m)%nat -> f i j = g i j) -> bordered m f = bordered m g.
  Proof.
    intros m f g H. unfold bordered. f_equal. apply functional_extensionality. intros i. apply functional_extensionality. intros j.
    destruct (Nat.ltb_spec i m); destruct (Nat.ltb_spec j m); try reflexivity. rewrite H by assumption. reflexivity.
  Qed.
  Lemma th_resolve_agree : forall slsqp pinv a m w v, counts a m w ->
    snd (slsqp (th_nll cdf a) (map (fun _ => nzero) (seq 0 m))) = vec m v ->
    th_resolve cdf slsqp pinv true a = th_resolve cdf slsqp pinv false a.
  Proof.
    intros slsqp pinv a m w v Ha E. unfold th_resolve. destruct Ha as (E0 & E1 & H). rewrite E0, E1. rewrite E.
    rewrite (bordered_ext m (th_lbda cdf true a (vec m v)) (th_lbda cdf false a (vec m v))); [reflexivity|].
    intros i j Hi Hj. rewrite !(th_lbda_Fin _ a m w) by (try assumption; repeat split; assumption). reflexivity.
  Qed.

  (** ** Derivatives *)
  Lemma dlim_gauss : forall x, derivable_pt_lim gauss x (- x * gauss x).
  Proof.
    intros x. unfold gauss. assert (S := sqrt_2pi_pos).
    assert (Q : derivable_pt_lim (fun t => - (t * t) / 2) x (- x)).
    { apply (dlim_ext (fun t => (-1/2) * (t * t))); [intros; field|]. eapply dlim_eq; [apply dlim_scal|].
      - apply (derivable_pt_lim_mult id id); apply derivable_pt_lim_id.
      - unfold id. field. }
    assert (E := derivable_pt_lim_comp (fun t => - (t * t) / 2) exp x (- x) _ Q (derivable_pt_lim_exp _)).
    apply (dlim_ext (fun t => / sqrt (2 * PI) * comp exp (fun t => - (t * t) / 2) t)); [intros; unfold comp, Rdiv; ring|].
    eapply dlim_eq; [apply dlim_scal, E|]. unfold Rdiv. ring.
  Qed.
  Definition score_ (z : R) : R := gauss z / F z.
  Lemma dlim_score : forall z, derivable_pt_lim score_ z (curvature F z).
  Proof.
    intros z. assert (P := F_pos z). unfold score_. eapply dlim_eq; [apply (dlim_div gauss F z)|].
    - lra. - apply dlim_gauss. - apply HF. - unfold curvature. field. lra.
  Qed.
  Definition th_grad (m : nat) (w : nat -> nat -> R) (v : nat -> R) (i : nat) : R :=
    total m (fun k => total m (fun j => w k j * ((delta k i - delta j i) * score_ (v k - v j)))).
  Lemma dlim_upd_diff : forall v i k j, derivable_pt_lim (fun t => upd v i t k - upd v i t j) (v i) (delta k i - delta j i).
  Proof. intros. apply (derivable_pt_lim_minus (fun t => upd v i t k) (fun t => upd v i t j)); apply dlim_upd. Qed.
  Lemma th_partial : forall m w v i, partial (th_likelihood F m w) i v (th_grad m w v i).
  Proof.
    intros m w v i. unfold partial, th_likelihood, th_grad. apply dlim_total. intros k Hk. apply dlim_total. intros j Hj. apply dlim_scal.
    assert (U : upd v i (v i) k - upd v i (v i) j = v k - v j) by (rewrite !upd_id; reflexivity).
    assert (D := derivable_pt_lim_comp (fun t => upd v i t k - upd v i t j) F (v i) _ _ (dlim_upd_diff v i k j)
      (proj2 (proj2 HF) _)). assert (D2 := dlim_ln (fun t => F (upd v i t k - upd v i t j)) (v i) _ (F_pos _) D). cbv beta in D2.
    rewrite U in D2. eapply dlim_eq; [exact D2|]. unfold score_. unfold Rdiv. ring.
  Qed.
  Definition th_hess (m : nat) (w : nat -> nat -> R) (v : nat -> R) (i l : nat) : R :=
    total m (fun k => total m (fun j => w k j * ((delta k i - delta j i) * ((delta k l - delta j l) * curvature F (v k - v j))))).
  Lemma th_grad_partial : forall m w v i l, partial (fun u => th_grad m w u i) l v (th_hess m w v i l).
  Proof.
    intros m w v i l. unfold partial, th_grad, th_hess. apply dlim_total. intros k Hk. apply dlim_total. intros j Hj. do 2 apply dlim_scal.
    assert (U : upd v l (v l) k - upd v l (v l) j = v k - v j) by (rewrite !upd_id; reflexivity).
    assert (D := derivable_pt_lim_comp (fun t => upd v l t k - upd v l t j) score_ (v l) _ _ (dlim_upd_diff v l k j) (dlim_score _)).
    cbv beta in D. rewrite U in D. eapply dlim_eq; [exact D|]. ring.
  Qed.
  Lemma th_hess_iff : forall m w v i l h,
    (second_partial (fun _ => True) (th_likelihood F m w) i l v h <-> h = th_hess m w v i l).
  Proof.
    intros m w v i l h. split.
    - intros [G [H1 H2]]. eapply partial_unique; [|apply th_grad_partial]. unfold partial in *.
      eapply dlim_ext; [|exact H2]. intros t. cbv beta. exact (partial_unique _ _ _ _ _ (H1 _ I) (th_partial m w _ i)).
    - intros ->. exists (fun u => th_grad m w u i). split; [intros; apply th_partial|apply th_grad_partial].
  Qed.
  Lemma delta_total : forall m i (f : nat -> R), (i < m)%nat -> total m (fun k => delta k i * f k) = f i.
  Proof. intros. apply total_delta. assumption. Qed.
  Lemma th_hess_off : forall m w v i l, (i < m)%nat -> (l < m)%nat -> i <> l ->
    th_hess m w v i l = - (w i l * curvature F (v i - v l)) - w l i * curvature F (v l - v i).
  Proof.
    intros m w v i l Hi Hl N. unfold th_hess.
    assert (D : forall k, delta k i * delta k l = 0).
    { intros k. unfold delta. destruct (Nat.eqb_spec k i), (Nat.eqb_spec k l); subst; try contradiction; ring. }
    rewrite (total_ext m _ (fun k => delta k i * - total m (fun j => delta j l * (w k j * curvature F (v k - v j)))
                                   + delta k l * - total m (fun j => delta j i * (w k j * curvature F (v k - v j))))).
    - rewrite total_add, !delta_total by assumption. ring.
    - intros k Hk. rewrite !Ropp_mult_distr_r_reverse, <- !total_mul, <- Ropp_plus_distr, <- total_add.
      rewrite <- (Rmult_1_l (total m _)) at 1. symmetry. rewrite <- (Rmult_1_l (total m _)), <- Ropp_mult_distr_l_reverse, <- total_mul.
      rewrite Rmult_1_l. apply total_ext. intros j Hj. set (c := curvature F (v k - v j)).
      replace (w k j * ((delta k i - delta j i) * ((delta k l - delta j l) * c))) with
        (w k j * c * (delta k i * delta k l) - w k j * c * (delta k i * delta j l) - w k j * c * (delta j i * delta k l) + w k j * c * (delta j i * delta j l)) by ring.
      rewrite (D k), (D j). ring.
  Qed.
  Lemma th_entry : forall b a m w v i k, counts a m w -> (i < m)%nat -> (k < m)%nat -> i <> k ->
    exists x, th_lbda cdf b a (vec m v) i k = Fin x /\
      (second_partial (fun _ => True) (th_likelihood F m w) i k v x <->
       w k i = 0 \/ curvature F (v i - v k) = curvature F (v k - v i)).
  Proof.
    intros b a m w v i k Ha Hi Hk N. eexists. split; [apply (th_lbda_Fin b a m w); assumption|]. rewrite th_hess_iff.
    rewrite th_hess_off by assumption. unfold delta. destruct (Nat.eqb_spec i k) as [C|_]; [contradiction|]. unfold games. split.
    - intros E. assert (Q : w k i * (curvature F (v i - v k) - curvature F (v k - v i)) = 0) by lra.
      apply Rmult_integral in Q. destruct Q; [left; assumption|right; lra].
    - intros [Z|Z]; rewrite Z; ring.
  Qed.

  (** ** The curvature is not even *)
  Definition gap (z : R) : R := gauss z * (2 * F z - 1) - z * (F z * (1 - F z)).
  Lemma even_gap : forall z, curvature F z = curvature F (- z) -> gap z = 0.
  Proof.
    intros z E. destruct HF as (R1 & R2 & _). unfold curvature in E. rewrite gauss_even, R2 in E. unfold gap.
    assert (P := R1 z). set (f := gauss z) in *. set (p := F z) in *. assert (Pf : 0 < f) by apply gauss_pos.
    assert (Q : f * (f * (2 * p - 1) - z * (p * (1 - p))) = 0).
    { apply (f_equal (fun t => t * (p * p * ((1 - p) * (1 - p))))) in E.
      replace ((- z * p * f - f * f) / (p * p) * (p * p * ((1 - p) * (1 - p)))) with ((- z * p * f - f * f) * ((1 - p) * (1 - p))) in E by (field; lra).
      replace ((- - z * (1 - p) * f - f * f) / ((1 - p) * (1 - p)) * (p * p * ((1 - p) * (1 - p)))) with ((z * (1 - p) * f - f * f) * (p * p)) in E by (field; lra).
      lra. }
    apply Rmult_integral in Q. destruct Q; [lra|assumption].
  Qed.
  Lemma F_0 : F 0 = 1 / 2.
  Proof. destruct HF as (_ & R2 & _). assert (E := R2 0). rewrite Ropp_0 in E. lra. Qed.
  Lemma gap_0 : gap 0 = 0. Proof. unfold gap. rewrite F_0. lra. Qed.
  Lemma dlim_gap : derivable_pt_lim gap 0 (1 / PI - 1 / 4).
  Proof.
    assert (DF := proj2 (proj2 HF) 0). assert (DG := dlim_gauss 0).
    assert (D1 : derivable_pt_lim (fun z => 2 * F z - 1) 0 (2 * gauss 0)).
    { eapply dlim_eq; [apply (derivable_pt_lim_minus (fun z => 2 * F z) (fun _ => 1)); [apply dlim_scal, DF|apply dlim_const]|]. ring. }
    assert (D2 : derivable_pt_lim (fun z => F z * (1 - F z)) 0 (gauss 0 * (1 - F 0) + F 0 * (0 - gauss 0))).
    { apply (derivable_pt_lim_mult F (fun z => 1 - F z)); [exact DF|].
      apply (derivable_pt_lim_minus (fun _ => 1) F); [apply dlim_const|exact DF]. }
    assert (D := derivable_pt_lim_minus _ _ 0 _ _ (derivable_pt_lim_mult _ _ 0 _ _ DG D1) (derivable_pt_lim_mult _ _ 0 _ _ (derivable_pt_lim_id 0) D2)).
    eapply dlim_eq; [exact D|]. unfold id. rewrite F_0.
    assert (G : gauss 0 * gauss 0 = / (2 * PI)).
    { unfold gauss. replace (- (0 * 0) / 2) with 0 by field. rewrite exp_0. assert (S := sqrt_2pi_pos).
      assert (SS : sqrt (2 * PI) * sqrt (2 * PI) = 2 * PI) by (apply sqrt_sqrt; generalize PI_RGT_0; lra).
      set (s := sqrt (2 * PI)) in *. rewrite <- SS. field. lra. }
    replace (- 0 * gauss 0 * (2 * (1 / 2) - 1) + gauss 0 * (2 * gauss 0) - (1 * (1 / 2 * (1 - 1 / 2)) + 0 * (gauss 0 * (1 - 1 / 2) + 1 / 2 * (0 - gauss 0))))
      with (2 * (gauss 0 * gauss 0) - 1 / 4) by field.
    rewrite G. generalize PI_RGT_0. intros. field. lra.
  Qed.
  Lemma PI_lt4 : PI < 4.
  Proof.
    assert (H := proj2 (PI_ineq 1)). change (2 * 1)%nat with 2%nat in H. unfold tg_alt, PI_tg in H. cbn in H. lra.
  Qed.
  Lemma uneven : exists z, curvature F z <> curvature F (- z).
  Proof.
    assert (N : 1 / PI - 1 / 4 > 0).
    { assert (P := PI_RGT_0). assert (L := PI_lt4). assert (/ 4 < / PI) by (apply Rinv_lt_contravar; [nra|exact L]). lra. }
    destruct (dlim_gap (1 / PI - 1 / 4) N) as [d Hd]. exists (d / 2). intros E. apply even_gap in E.
    assert (Pd := cond_pos d). specialize (Hd (d / 2) ltac:(lra)). rewrite Rplus_0_l, E, gap_0 in Hd.
    rewrite Rabs_pos_eq in Hd by lra. specialize (Hd ltac:(lra)).
    replace ((0 - 0) / (d / 2) - (1 / PI - 1 / 4)) with (- (1 / PI - 1 / 4)) in Hd by (field; generalize PI_RGT_0; lra).
    rewrite Rabs_Ropp, Rabs_pos_eq in Hd by lra. lra.
  Qed.
End Th.
