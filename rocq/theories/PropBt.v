(** Theorems for claims C47-C52 and C74: the paired comparison models.
    [pinv] is the pseudo-inverse, [slsqp] the minimiser and [cdf] the normal
    distribution function used by the code. *)
From Coq Require Import List ZArith Bool Arith Reals Lia Lra.
From Verif Require Import PyBase Num ExtReal NumPy SpecMos PairedComp SpecBt BtProofs Bt2Proofs Bt3Proofs Bt4Proofs Bt5Proofs Bt6Proofs NormalCdf BtWitness.
Import ListNotations.
Local Open Scope R_scope.

(** C47: every iterate. *)
Theorem C47_iterates : forall a m w k, (0 < m)%nat -> counts a m w -> nonneg_counts m w -> each_won m w ->
  exists p, probabilities m p /\ Nat.iter k (bt_step a) (bt_start m) = vec m p.
Proof. exact iter_prob. Qed.
Print Assumptions C47_iterates.

(** C47: the returned vector and its logarithms. *)
Theorem C47_result : forall pinv fuel a m w r, counts a m w -> nonneg_counts m w -> each_won m w ->
  bt_resolve pinv fuel a = Ok r ->
  exists p, probabilities m p /\ bt_p r = vec m p /\ bt_v r = vec m (fun i => ln (p i)).
Proof. exact c47_result. Qed.
Print Assumptions C47_result.

(** C47: the solver can only fail by not converging or in the pseudo-inverse. *)
Theorem C47_outcome : forall pinv fuel a m w e, (0 < m)%nat -> counts a m w -> nonneg_counts m w -> each_won m w ->
  bt_resolve pinv fuel a = Err e -> e = Diverges \/ exists x, pinv x = Err e.
Proof. exact c47_outcome. Qed.
Print Assumptions C47_outcome.

(** C47: from the votes. *)
Theorem C47_run : forall pinv fuel (a : arr3 ef) m r, dE a = m -> dS a = m -> finite_votes a ->
  nonneg_counts m (preferences a) -> each_won m (preferences a) -> bt_run pinv fuel a = Ok r ->
  exists p, probabilities m p /\ bt_p r = vec m p /\ bt_v r = vec m (fun i => ln (p i)).
Proof. exact c47_run. Qed.
Print Assumptions C47_run.

Example C47_nonvacuous : counts wb_arr 2 wb /\ nonneg_counts 2 wb /\ each_won 2 wb /\
  (exists r, bt_resolve same 2 wb_arr = Ok r /\ bt_p r = vec 2 wb_p) /\ bt_start 2 <> vec 2 wb_p.
Proof.
  split; [exact wb_counts|]. split; [exact wb_nonneg|]. split; [exact wb_won|]. split; [exact wb_resolve|].
  rewrite (bt_start_eq 2) by lia. unfold vec, wb_p. cbn [seq map]. intro H. injection H as H _. cbn in H. lra.
Qed.
Example C47_run_nonvacuous : finite_votes wb_votes /\ nonneg_counts 2 (preferences wb_votes) /\ each_won 2 (preferences wb_votes) /\
  exists r, bt_run same 2 wb_votes = Ok r.
Proof. exact wb_votes_run. Qed.

(** C48: one pass of the loop. *)
Theorem C48_step : forall a m w p, (0 < m)%nat -> counts a m w -> nonneg_counts m w -> each_won m w -> positive m p ->
  exists q, bt_step a (vec m p) = vec m q /\ probabilities m q /\ bt_likelihood m w p <= bt_likelihood m w q.
Proof. exact c48_step. Qed.
Print Assumptions C48_step.

(** C48: the result is at least as likely as the uniform start, and the last
    pass moved by at most the threshold. *)
Theorem C48_result : forall pinv fuel a m w r, counts a m w -> nonneg_counts m w -> each_won m w ->
  bt_resolve pinv fuel a = Ok r ->
  exists p q, bt_p r = vec m q /\ probabilities m p /\ bt_step a (vec m p) = vec m q /\
    bt_likelihood m w (fun _ => / INR m) <= bt_likelihood m w p <= bt_likelihood m w q /\ distance m q p <= 1 / 100000000.
Proof. exact c48_result. Qed.
Print Assumptions C48_result.

Example C48_nonvacuous : counts wb_arr 2 wb /\ nonneg_counts 2 wb /\ each_won 2 wb /\ positive 2 wb_p /\
  exists r, bt_resolve same 2 wb_arr = Ok r.
Proof.
  split; [exact wb_counts|]. split; [exact wb_nonneg|]. split; [exact wb_won|]. split; [apply wb_prob|].
  destruct wb_resolve as (r & H & _). exists r. exact H.
Qed.

(** C49: fixed points, balance of observed and expected wins, stationary points. *)
Theorem C49_fixed : forall a m w p, (0 < m)%nat -> counts a m w -> nonneg_counts m w -> each_won m w -> probabilities m p ->
  (bt_step a (vec m p) = vec m p <-> forall i, (i < m)%nat -> wins m w i = expected m w p i) /\
  ((exists c, forall i, (i < m)%nat -> wins m w i = c * expected m w p i) <-> forall i, (i < m)%nat -> wins m w i = expected m w p i) /\
  (bt_step a (vec m p) = vec m p <-> stationary m (bt_likelihood m w) p).
Proof. exact c49_fixed. Qed.
Print Assumptions C49_fixed.

Example C49_nonvacuous : counts wb_arr 2 wb /\ nonneg_counts 2 wb /\ each_won 2 wb /\ probabilities 2 wb_p /\
  bt_step wb_arr (vec 2 wb_p) = vec 2 wb_p /\ bt_step wb_arr (bt_start 2) <> bt_start 2.
Proof.
  split; [exact wb_counts|]. split; [exact wb_nonneg|]. split; [exact wb_won|]. split; [exact wb_prob|].
  split; [apply wb_step; [apply wb_prob|unfold wb_p; lra|right; reflexivity]|].
  rewrite (bt_start_eq 2) by lia. rewrite wb_step; [|intros i _; cbn; lra|cbn; lra|left; cbn; lra].
  unfold vec, wb_p. cbn [seq map]. intro H. injection H as H _. cbn in H. lra.
Qed.

(** C50, as far as it holds: the diagonal entries are the second derivatives,
    and an off-diagonal entry is one exactly when the two videos were never
    compared or their strengths add up to 1/2. *)
Theorem C50_hessian_partial : forall a m w p i k, counts a m w -> no_self m w -> positive m p -> (i < m)%nat -> (k < m)%nat ->
  exists x, bt_lbda a (vec m p) i k = Fin x /\
    (second_partial (positive m) (bt_likelihood m w) i k p x <-> i = k \/ games w i k = 0 \/ p i + p k = 1 / 2).
Proof. exact bt_hessian. Qed.
Print Assumptions C50_hessian_partial.

(** C50: how the uncertainty follows from that matrix. *)
Theorem C50_result_partial : forall pinv fuel a m w r, counts a m w -> nonneg_counts m w -> each_won m w -> no_self m w ->
  bt_resolve pinv fuel a = Ok r ->
  exists p x c, probabilities m p /\ bt_p r = vec m p /\ pinv x = Ok c /\ ones_border m x /\
    (forall i k, (i < m)%nat -> (k < m)%nat -> exists h, at2 x i k = Fin (- h) /\
       (second_partial (positive m) (bt_likelihood m w) i k p h <-> i = k \/ games w i k = 0 \/ p i + p k = 1 / 2)) /\
    forall i, (i < m)%nat -> vat (bt_p_std r) i = nsqrt (at2 c i i) /\ vat (bt_v_std r) i = ndiv (nsqrt (at2 c i i)) (Fin (p i)) /\
      vat (bt_ci r) i = nmul (Fin (195996 / 100000)) (vat (bt_v_std r) i) /\
      forall k, (k < m)%nat -> at2 (bt_p_cov r) i k = at2 c i k /\ at2 (bt_v_cov r) i k = ndiv (at2 c i k) (Fin (p i * p k)).
Proof. exact c50_result. Qed.
Print Assumptions C50_result_partial.

Example C50_nonvacuous : counts wb_arr 2 wb /\ nonneg_counts 2 wb /\ each_won 2 wb /\ no_self 2 wb /\ positive 2 wb_p /\
  exists r, bt_resolve same 2 wb_arr = Ok r.
Proof.
  split; [exact wb_counts|]. split; [exact wb_nonneg|]. split; [exact wb_won|]. split; [exact wb_self|]. split; [apply wb_prob|].
  destruct wb_resolve as (r & H & _). exists r. exact H.
Qed.

(** C50 is false: the off-diagonal entries are 2 n / (p_i + p_j). *)
Theorem C50_refuted : exists a m w p i k x, counts a m w /\ nonneg_counts m w /\ each_won m w /\ no_self m w /\
  bt_loop 2 a (bt_start m) = Ok (vec m p) /\ (i < m)%nat /\ (k < m)%nat /\ bt_lbda a (vec m p) i k = Fin x /\
  ~ second_partial (positive m) (bt_likelihood m w) i k p x.
Proof. exact c50_refuted. Qed.
Print Assumptions C50_refuted.

(** C51: shifting Thurstone scores, for every distribution function. *)
Theorem C51_thurstone_shift : forall cdf a m x c, n0 a = m -> th_nll cdf a (vec m (fun i => x i + c)) = th_nll cdf a (vec m x).
Proof. exact nll_shift. Qed.
Print Assumptions C51_thurstone_shift.

(** C51: scaling Bradley-Terry strengths. *)
Theorem C51_bt_scale : forall m w p c, positive m p -> 0 < c -> bt_likelihood m w (fun i => c * p i) = bt_likelihood m w p.
Proof. exact likelihood_scale. Qed.
Print Assumptions C51_bt_scale.

(** C51: relabelling and the Thurstone objective. *)
Theorem C51_thurstone_relabel : forall m s a b, permutes m s -> n0 a = m -> relabelled_counts s a b ->
  forall cdf v u, relabelled m s v u -> th_nll cdf b u = th_nll cdf a v.
Proof. exact nll_relabel. Qed.
Print Assumptions C51_thurstone_relabel.

(** C51: relabelling and the Thurstone result, for a minimiser that returns the
    relabelled point and a pseudo-inverse that commutes with relabelling. *)
Theorem C51_thurstone_result : forall m s a b, permutes m s -> n0 a = m -> n1 a = m -> relabelled_counts s a b ->
  forall cdf slsqp pinv simp, equivariant m s pinv ->
  fst (slsqp (th_nll cdf b) (map (fun _ => nzero) (seq 0 m))) = fst (slsqp (th_nll cdf a) (map (fun _ => nzero) (seq 0 m))) ->
  relabelled m s (snd (slsqp (th_nll cdf a) (map (fun _ => nzero) (seq 0 m)))) (snd (slsqp (th_nll cdf b) (map (fun _ => nzero) (seq 0 m)))) ->
  same_outcome (fun r r' => relabelled m s (th_v r) (th_v r') /\ relabelled m s (th_std r) (th_std r') /\
    forall i j, (i < m)%nat -> (j < m)%nat -> at2 (th_cov r') i j = at2 (th_cov r) (s i) (s j))
    (th_resolve cdf slsqp pinv simp a) (th_resolve cdf slsqp pinv simp b).
Proof. exact th_resolve_relabel. Qed.
Print Assumptions C51_thurstone_result.

(** C51: relabelling and the Bradley-Terry result, failures included. *)
Theorem C51_bt_relabel : forall m s a b, permutes m s -> n0 a = m -> n1 a = m -> relabelled_counts s a b ->
  forall pinv fuel, equivariant m s pinv ->
  same_outcome (fun r r' => relabelled m s (bt_p r) (bt_p r') /\ relabelled m s (bt_v r) (bt_v r') /\
    relabelled m s (bt_p_std r) (bt_p_std r') /\ relabelled m s (bt_v_std r) (bt_v_std r') /\
    (forall i j, (i < m)%nat -> (j < m)%nat -> at2 (bt_p_cov r') i j = at2 (bt_p_cov r) (s i) (s j)) /\
    (forall i j, (i < m)%nat -> (j < m)%nat -> at2 (bt_v_cov r') i j = at2 (bt_v_cov r) (s i) (s j)))
    (bt_resolve pinv fuel a) (bt_resolve pinv fuel b).
Proof. exact resolve_relabel. Qed.
Print Assumptions C51_bt_relabel.

Example C51_nonvacuous : permutes 2 swap /\ relabelled_counts swap wb_arr wb_arr' /\ equivariant 2 swap same /\
  relabelled 2 swap (vec 2 wb_p) (vec 2 (fun i => wb_p (swap i))) /\ at2 wb_arr 0 1 <> at2 wb_arr' 0 1 /\
  exists r, bt_resolve same 2 wb_arr = Ok r.
Proof.
  split; [exact swap_permutes|]. split; [exact wb_relabelled|]. split; [apply same_equivariant|].
  split; [split; [reflexivity|split; [reflexivity|]]; intros i Hi; two; reflexivity|].
  split; [cbn; intro H; injection H; unfold wb, swap; lra|]. destruct wb_resolve as (r & H & _). exists r. exact H.
Qed.
Example C51_thurstone_nonvacuous : exists slsqp r,
  (forall f x0, slsqp f x0 = (true, vec 2 (fun _ => 0))) /\
  relabelled 2 swap (vec 2 (fun _ => 0)) (vec 2 (fun _ => 0)) /\ th_resolve ncdf slsqp same true wb_arr = Ok r.
Proof.
  exists (fun _ _ => (true, vec 2 (fun _ => 0))). eexists. split; [reflexivity|].
  split; [split; [reflexivity|split; [reflexivity|]]; intros i Hi; two; reflexivity|]. reflexivity.
Qed.

(** C52: both formulas give the same matrix. *)
Theorem C52_agree : forall F cdf, normal_cdf F -> computes cdf F -> forall a m w v i k, counts a m w -> (i < m)%nat -> (k < m)%nat ->
  exists x, th_lbda cdf true a (vec m v) i k = Fin x /\ th_lbda cdf false a (vec m v) i k = Fin x.
Proof. exact th_agree. Qed.
Print Assumptions C52_agree.

(** C52: and the same result. *)
Theorem C52_agree_result : forall F cdf, normal_cdf F -> computes cdf F -> forall slsqp pinv a m w v, counts a m w ->
  snd (slsqp (th_nll cdf a) (map (fun _ => nzero) (seq 0 m))) = vec m v ->
  th_resolve cdf slsqp pinv true a = th_resolve cdf slsqp pinv false a.
Proof. exact th_resolve_agree. Qed.
Print Assumptions C52_agree_result.

(** C52: an off-diagonal entry is the second derivative exactly when the second
    video never won or the curvature is the same at both differences. *)
Theorem C52_hessian_partial : forall F cdf, normal_cdf F -> computes cdf F -> forall b a m w v i k, counts a m w -> (i < m)%nat -> (k < m)%nat -> i <> k ->
  exists x, th_lbda cdf b a (vec m v) i k = Fin x /\
    (second_partial (fun _ => True) (th_likelihood F m w) i k v x <->
     w k i = 0 \/ curvature F (v i - v k) = curvature F (v k - v i)).
Proof. exact th_entry. Qed.
Print Assumptions C52_hessian_partial.

(** C52: how the uncertainty follows from that matrix. *)
Theorem C52_result_partial : forall F cdf, normal_cdf F -> computes cdf F -> forall slsqp pinv b a m w v r, counts a m w ->
  snd (slsqp (th_nll cdf a) (map (fun _ => nzero) (seq 0 m))) = vec m v ->
  th_resolve cdf slsqp pinv b a = Ok r ->
  th_v r = vec m v /\ exists x c, pinv x = Ok c /\ ones_border m x /\
    (forall i k, (i < m)%nat -> (k < m)%nat -> i <> k -> exists h, at2 x i k = Fin (- h) /\
       (second_partial (fun _ => True) (th_likelihood F m w) i k v h <-> w k i = 0 \/ curvature F (v i - v k) = curvature F (v k - v i))) /\
    forall i, (i < m)%nat -> vat (th_std r) i = nsqrt (at2 c i i) /\ forall k, (k < m)%nat -> at2 (th_cov r) i k = at2 c i k.
Proof. exact c52_result. Qed.
Print Assumptions C52_result_partial.

Example C52_nonvacuous : normal_cdf normal /\ computes ncdf normal /\ counts wb_arr 2 wb /\
  exists slsqp r, snd (slsqp (th_nll ncdf wb_arr) (map (fun _ => nzero) (seq 0 2))) = vec 2 (fun i => INR i) /\
    th_resolve ncdf slsqp same true wb_arr = Ok r.
Proof.
  split; [exact normal_is_cdf|]. split; [exact ncdf_computes|]. split; [exact wb_counts|].
  exists (fun _ _ => (true, vec 2 (fun i => INR i))). eexists. split; reflexivity.
Qed.

(** C52 is false for the second derivatives: equal counts and unequal scores. *)
Theorem C52_refuted : forall F cdf, normal_cdf F -> computes cdf F -> exists a m w v i k, counts a m w /\ nonneg_counts m w /\ each_won m w /\ no_self m w /\
  (i < m)%nat /\ (k < m)%nat /\ forall b, exists x, th_lbda cdf b a (vec m v) i k = Fin x /\
    ~ second_partial (fun _ => True) (th_likelihood F m w) i k v x.
Proof. exact c52_refuted. Qed.
Print Assumptions C52_refuted.

(** C74: the vector of a Newton step is the gradient. *)
Theorem C74_gradient : forall a m w g i, counts a m w -> nonneg_counts m w -> (i < m)%nat ->
  exists x, nr_dL a (vec m g) i = Fin x /\ partial (bt_log_likelihood m w) i g x.
Proof. exact c74_gradient. Qed.
Print Assumptions C74_gradient.

(** C74: the matrix of a Newton step holds the second derivatives. *)
Theorem C74_hessian : forall a m w g i l, counts a m w -> nonneg_counts m w -> no_self m w -> (i < m)%nat -> (l < m)%nat ->
  exists x, nr_d2L a (vec m g) i l = Fin x /\ second_partial (fun _ => True) (bt_log_likelihood m w) i l g x.
Proof. exact c74_hessian. Qed.
Print Assumptions C74_hessian.

(** C74: the result is one Newton step from a point it moved by at most the
    threshold, with the last score 0 before and after. *)
Theorem C74_result : forall pinv fuel a m w q, counts a m w -> nonneg_counts m w -> no_self m w ->
  nr_resolve pinv fuel false a = Ok q ->
  exists g c, q = vec m (fun i => g i - c i) /\ g (m - 1)%nat = 0 /\ newton_step pinv m w g c /\ distance m (fun i => g i - c i) g <= 1 / 100000000.
Proof. exact c74_result. Qed.
Print Assumptions C74_result.

(** C74: the last score is 0 for every array, missing and infinite counts included. *)
Theorem C74_last : forall pinv fuel (a : arr2 ef) q, nr_resolve pinv fuel false a = Ok q ->
  (0 < n0 a)%nat /\ n1 a = n0 a /\ length q = n0 a /\ vat q (n0 a - 1) = Fin 0.
Proof. exact c74_last. Qed.
Print Assumptions C74_last.

(** C74: z-scored output has mean 0 and variance 1. *)
Theorem C74_zscore : forall pinv fuel (a : arr2 ef) m x, nr_resolve pinv fuel false a = Ok (vec m x) -> (exists i, (i < m)%nat /\ x i <> x (m - 1)%nat) ->
  exists z, nr_resolve pinv fuel true a = Ok (vec m z) /\ total m z = 0 /\ total m (fun i => z i * z i) = INR m /\
    exists mu s, 0 < s /\ forall i, (i < m)%nat -> z i = (x i - mu) / s.
Proof. exact c74_zscore. Qed.
Print Assumptions C74_zscore.

Example C74_nonvacuous : counts wb_arr 2 wb /\ nonneg_counts 2 wb /\ no_self 2 wb /\
  nr_resolve jump 2 false wb_arr = Ok (vec 2 wb_g) /\ exists i, (i < 2)%nat /\ wb_g i <> wb_g (2 - 1)%nat.
Proof.
  split; [exact wb_counts|]. split; [exact wb_nonneg|]. split; [exact wb_self|]. split; [exact jump_resolve|].
  exists 0%nat. split; [lia|]. cbn [wb_g Nat.sub]. assert (0 < ln 2) by (rewrite <- ln_1; apply ln_increasing; lra). lra.
Qed.
