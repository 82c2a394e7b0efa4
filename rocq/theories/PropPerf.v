(** Theorems for claims C59, C62, C63, C64, C75: density of a sum of uniforms,
    coverage percentage, metrics, logistic mapping. *)
From Coq Require Import List ZArith Bool Arith Reals Lia Lra.
From Verif Require Import PyBase Num ExtReal ExtRealProofs SpecMos Mle Perf SpecPerf PerfProofs Perf2Proofs Perf3Proofs PerfWitness.
Import ListNotations.
Local Open Scope R_scope.

(** C59: zero outside the support, wherever the intervals lie. *)
Theorem C59_support : forall x l1 s1 l2 s2, 0 < s1 -> 0 < s2 -> (s1 + s2) / 2 < Rabs (x - l1 - l2) ->
  convolution_of_two_uniforms (Fin x) (Fin l1) (Fin s1) (Fin l2) (Fin s2) = Fin 0.
Proof. exact c59_support. Qed.
Print Assumptions C59_support.
Example C59_support_ex : convolution_of_two_uniforms (Fin 9) (Fin 3) (Fin 1) (Fin 4) (Fin 2) = Fin 0.
Proof. apply C59_support; [lra|lra|]. rewrite Rabs_pos_eq; lra. Qed.

(** C59: the plateau, wherever the intervals lie. *)
Theorem C59_plateau : forall x l1 s1 l2 s2, 0 < s1 -> 0 < s2 -> Rabs (x - l1 - l2) < Rabs (s1 - s2) / 2 ->
  convolution_of_two_uniforms (Fin x) (Fin l1) (Fin s1) (Fin l2) (Fin s2) = Fin (/ Rmax s1 s2).
Proof. exact c59_plateau. Qed.
Print Assumptions C59_plateau.
Example C59_plateau_ex : convolution_of_two_uniforms (Fin 7) (Fin 3) (Fin 1) (Fin 4) (Fin 2) = Fin (/ Rmax 1 2).
Proof. apply C59_plateau; [lra|lra|]. rewrite Rabs_pos_eq, Rabs_left; lra. Qed.

(** C59 (locations summing to 0): the density, which depends on x - l1 - l2 only
    and is never negative. *)
Theorem C59_density_partial : forall x l1 s1 l2 s2, 0 < s1 -> 0 < s2 -> l1 + l2 = 0 ->
  convolution_of_two_uniforms (Fin x) (Fin l1) (Fin s1) (Fin l2) (Fin s2) = Fin (overlap s1 s2 (x - l1 - l2)) /\ 0 <= overlap s1 s2 (x - l1 - l2).
Proof. exact c59_centred. Qed.
Print Assumptions C59_density_partial.
Example C59_density_ex : exists v, convolution_of_two_uniforms (Fin 1) (Fin 3) (Fin 1) (Fin (-3)) (Fin 2) = Fin v /\ v = 1 / 4.
Proof.
  eexists. split; [apply C59_density_partial; lra|]. unfold overlap. rewrite (Rmin_left (1 / 2)), (Rmax_right (-1 / 2)) by lra. rewrite Rmax_right by lra. lra.
Qed.

(** C59 (other locations): on both flanks the value is off by |l1 + l2| / (s1 s2). *)
Theorem C59_flank_error : forall x l1 s1 l2 s2, 0 < s1 -> 0 < s2 -> l1 + l2 <> 0 -> Rabs (s1 - s2) / 2 < Rabs (x - l1 - l2) < (s1 + s2) / 2 ->
  exists v, convolution_of_two_uniforms (Fin x) (Fin l1) (Fin s1) (Fin l2) (Fin s2) = Fin v /\
    v <> overlap s1 s2 (x - l1 - l2) /\ Rabs (v - overlap s1 s2 (x - l1 - l2)) = Rabs (l1 + l2) / (s1 * s2).
Proof. exact c59_error. Qed.
Print Assumptions C59_flank_error.

(** C59 as stated is false: same x - l1 - l2, same widths, two values. *)
Theorem C59_translation_refuted : exists x l1 s1 l2 s2 x' l1' l2', 0 < s1 /\ 0 < s2 /\ x - l1 - l2 = x' - l1' - l2' /\
  convolution_of_two_uniforms (Fin x) (Fin l1) (Fin s1) (Fin l2) (Fin s2) <> convolution_of_two_uniforms (Fin x') (Fin l1') (Fin s1) (Fin l2') (Fin s2).
Proof.
  exists (-12/5), (-1), 1, 0, 2, (-7/5), 0, 0. repeat split; try lra. rewrite c59_negative, (proj1 (c59_centred (-7/5) 0 1 0 2 ltac:(lra) ltac:(lra) ltac:(lra))).
  intro H. apply (f_equal toR) in H. cbn [toR] in H. generalize (overlap_nonneg 1 2 (-7/5 - 0 - 0) ltac:(lra) ltac:(lra)). lra.
Qed.
Print Assumptions C59_translation_refuted.
Theorem C59_nonnegative_refuted : exists x l1 s1 l2 s2 v, 0 < s1 /\ 0 < s2 /\ v < 0 /\
  convolution_of_two_uniforms (Fin x) (Fin l1) (Fin s1) (Fin l2) (Fin s2) = Fin v.
Proof. exists (-12/5), (-1), 1, 0, 2, (-9/20). repeat split; try lra. exact c59_negative. Qed.
Print Assumptions C59_nonnegative_refuted.

(** C62: 100 times the fraction of covered positions. *)
Theorem C62_value : forall xs ys l u c, xs <> [] -> length ys = length xs -> length l = length xs -> length u = length xs ->
  covered_positions xs ys l u (length xs) c ->
  get_ci_percentage xs ys [l; u] = Ok (Fin (100 * (INR (length c) / INR (length xs)))).
Proof. exact c62_value. Qed.
Print Assumptions C62_value.
Theorem C62_positions_exist : forall xs ys l u, length ys = length xs -> length l = length xs -> length u = length xs ->
  exists c, covered_positions xs ys l u (length xs) c.
Proof. exact c62_positions_exist. Qed.
Print Assumptions C62_positions_exist.
Theorem C62_range : forall xs ys ci r, get_ci_percentage xs ys ci = Ok r -> exists v, r = Fin v /\ 0 <= v <= 100.
Proof. exact c62_range. Qed.
Print Assumptions C62_range.
Theorem C62_accepts : forall xs ys ci, (exists r, get_ci_percentage xs ys ci = Ok r) <->
  (exists l u, ci = [l; u] /\ xs <> [] /\ length ys = length xs /\ length l = length xs /\ length u = length xs).
Proof. exact c62_accepts. Qed.
Print Assumptions C62_accepts.
Theorem C62_mismatch : forall xs ys l u, length l = length u -> length ys <> length xs \/ length l <> length ys ->
  get_ci_percentage xs ys [l; u] = Err AssertionError.
Proof. exact c62_mismatch. Qed.
Print Assumptions C62_mismatch.
Theorem C62_widening : forall xs ys l u l' u' r r', wider l l' -> wider u u' ->
  get_ci_percentage xs ys [map Fin l; map Fin u] = Ok (Fin r) -> get_ci_percentage xs ys [map Fin l'; map Fin u'] = Ok (Fin r') -> r <= r'.
Proof. exact c62_widening. Qed.
Print Assumptions C62_widening.
Example C62_ex : get_ci_percentage [Fin 1; Fin 5; NaN] [Fin 2; Fin 2; Fin 2] [[Fin 1; Fin 1; Fin 1]; [Fin 1; PInf; Fin 1]] = Ok (Fin (100 * (2 / 3))).
Proof. exact w_percentage. Qed.
Example C62_widening_ex : wider [1; 0] [2; 0] /\ wider [1; 1] [1; 3] /\
  get_ci_percentage [Fin 1; Fin 5] [Fin 3; Fin 2] [map Fin [1; 0]; map Fin [1; 1]] = Ok (Fin (100 * 0)) /\
  get_ci_percentage [Fin 1; Fin 5] [Fin 3; Fin 2] [map Fin [2; 0]; map Fin [1; 3]] = Ok (Fin (100 * (2 / 2))).
Proof. exact w_widening. Qed.
Example C62_mismatch_ex : get_ci_percentage [Fin 1; Fin 5] [Fin 2] [[Fin 1]; [Fin 1]] = Err AssertionError.
Proof. apply C62_mismatch; [reflexivity|left; discriminate]. Qed.

(** C63: the RMSE score is the root mean squared difference ... *)
Theorem C63_rmse : forall lstsq g p, g <> [] -> length p = length g -> perf_score lstsq RMSE false (plain g) (map Fin p) = Ok (Fin (distance g p)).
Proof. exact c63_rmse. Qed.
Print Assumptions C63_rmse.
Example C63_rmse_ex : perf_score w_lstsq RMSE false (plain [1; 2]) (map Fin [4; 6]) = Ok (Fin (sqrt (25 / 2))).
Proof. rewrite <- w_triangle. apply C63_rmse; [discriminate|reflexivity]. Qed.
(** ... which is a metric. *)
Theorem C63_nonnegative : forall g p, 0 <= distance g p.
Proof. exact distance_nonneg. Qed.
Print Assumptions C63_nonnegative.
Theorem C63_symmetric : forall g p, length p = length g -> distance g p = distance p g.
Proof. exact distance_sym. Qed.
Print Assumptions C63_symmetric.
Theorem C63_zero : forall g p, g <> [] -> length p = length g -> (distance g p = 0 <-> g = p).
Proof. exact distance_zero. Qed.
Print Assumptions C63_zero.
Theorem C63_triangle : forall a b c, a <> [] -> length b = length a -> length c = length a -> distance a c <= distance a b + distance b c.
Proof. exact distance_triangle. Qed.
Print Assumptions C63_triangle.
Example C63_metric_ex : distance [1; 2] [4; 6] = sqrt (25 / 2) /\ [1; 2] <> [4; 6].
Proof. split; [exact w_triangle|]. intro H. injection H. lra. Qed.

(** C63: Pearson in [-1, 1] for vectors with spread; invariance under positive
    affine maps for all vectors. *)
Theorem C63_pcc_partial : forall lstsq g p, length p = length g -> has_spread g -> has_spread p ->
  perf_score lstsq PCC false (plain g) (map Fin p) = Ok (Fin (pearson g p)) /\ -1 <= pearson g p <= 1.
Proof. exact c63_pcc_exact. Qed.
Print Assumptions C63_pcc_partial.
Theorem C63_pcc_affine : forall lstsq a c a' c' g p, 0 < a -> 0 < a' -> length p = length g ->
  perf_score lstsq PCC false (plain (map (fun v => a * v + c) g)) (map Fin (map (fun v => a' * v + c') p)) = perf_score lstsq PCC false (plain g) (map Fin p).
Proof. exact c63_pcc_affine. Qed.
Print Assumptions C63_pcc_affine.
Example C63_pcc_ex : exists r, perf_score w_lstsq PCC false (plain [1; 2; 4]) (map Fin [3; 1; 1]) = Ok (Fin r).
Proof. eexists. apply C63_pcc_partial; [reflexivity|apply w_spread|apply w_spread]. Qed.
(** Without spread the score is NaN; of a single point there is none. *)
Theorem C63_pcc_constant : forall lstsq g p, (2 <= length g)%nat -> length p = length g -> ~ (has_spread g /\ has_spread p) ->
  perf_score lstsq PCC false (plain g) (map Fin p) = Ok NaN.
Proof. exact c63_pcc_constant. Qed.
Print Assumptions C63_pcc_constant.
Theorem C63_pcc_refuted : exists lstsq g p g' p', g <> [] /\ length p = length g /\ perf_score lstsq PCC false (plain g) (map Fin p) = Ok NaN /\
  g' <> [] /\ length p' = length g' /\ perf_score lstsq PCC false (plain g') (map Fin p') = Err ValueError.
Proof.
  exists w_lstsq, [1; 1], [1; 2], [1], [2]. split; [discriminate|]. split; [reflexivity|]. split; [|split; [discriminate|split; [reflexivity|]]].
  - apply c63_pcc_constant; [cbn; lia|reflexivity|]. intros [(u & v & Hu & Hv & D) _]. cbn in Hu, Hv. apply D. intuition congruence.
  - apply c63_short.
Qed.
Print Assumptions C63_pcc_refuted.
(** C63: raw scores enter by their means; different lengths are refused. *)
Theorem C63_raw : forall lstsq m mapping gts p, (forall l, In (RawScores l) gts -> exists v, v <> [] /\ l = map Fin v) ->
  perf_score lstsq m mapping gts p =
  perf_score lstsq m mapping (map (fun t => match t with Aggregate x => Aggregate x | RawScores l => Aggregate (Fin (Rmean (presents l))) end) gts) p.
Proof. exact c63_raw. Qed.
Print Assumptions C63_raw.
Theorem C63_lengths : forall lstsq m mapping gts p, length gts <> length p -> perf_score lstsq m mapping gts p = Err AssertionError.
Proof. exact c63_lengths. Qed.
Print Assumptions C63_lengths.

(** C64: the data of the fit are the inverse images of the ground truth, and the
    result is the fitted curve at the predictions. *)
Theorem C64_formula : forall lstsq xs ys mn mx, smallest mn ys -> largest mx ys -> length xs = length ys ->
  exists zs, length zs = length ys /\
    (forall i y z, nth_error ys i = Some y -> nth_error zs i = Some z -> logistic (mn - 1/10) (mx + 1/10) 0 1 z = y) /\
    (forall e, lstsq (map (fun z => (Fin 1, Fin z)) zs) (map Fin xs) = Err e -> sigmoid_adjust lstsq (map Fin xs) (map Fin ys) = Err e) /\
    (forall a b, b <> 0 -> lstsq (map (fun z => (Fin 1, Fin z)) zs) (map Fin xs) = Ok (Fin a, Fin b) ->
       sigmoid_adjust lstsq (map Fin xs) (map Fin ys) = Ok (map (fun x => Fin (logistic (mn - 1/10) (mx + 1/10) a b x)) xs)).
Proof. exact c64_formula. Qed.
Print Assumptions C64_formula.
Theorem C64_range : forall lstsq xs ys mn mx out, smallest mn ys -> largest mx ys -> length xs = length ys -> slope lstsq (fun b => b <> 0) ->
  sigmoid_adjust lstsq (map Fin xs) (map Fin ys) = Ok out ->
  length out = length xs /\ forall i v, nth_error out i = Some v -> exists r, v = Fin r /\ mn - 1/10 < r < mx + 1/10.
Proof. exact c64_range. Qed.
Print Assumptions C64_range.
Theorem C64_increasing : forall lstsq xs ys mn mx out, smallest mn ys -> largest mx ys -> length xs = length ys -> slope lstsq (fun b => 0 < b) ->
  sigmoid_adjust lstsq (map Fin xs) (map Fin ys) = Ok out ->
  forall i j x x' v v', nth_error xs i = Some x -> nth_error xs j = Some x' -> nth_error out i = Some (Fin v) -> nth_error out j = Some (Fin v') -> (x < x' <-> v < v').
Proof. exact c64_order. Qed.
Print Assumptions C64_increasing.
Theorem C64_decreasing : forall lstsq xs ys mn mx out, smallest mn ys -> largest mx ys -> length xs = length ys -> slope lstsq (fun b => b < 0) ->
  sigmoid_adjust lstsq (map Fin xs) (map Fin ys) = Ok out ->
  forall i j x x' v v', nth_error xs i = Some x -> nth_error xs j = Some x' -> nth_error out i = Some (Fin v) -> nth_error out j = Some (Fin v') -> (x < x' <-> v' < v).
Proof. exact c64_reverse. Qed.
Print Assumptions C64_decreasing.
Theorem C64_lengths : forall lstsq xs ys, length xs <> length ys -> ys <> [] -> sigmoid_adjust lstsq (map Fin xs) (map Fin ys) = Err LinAlgError.
Proof. exact c64_lengths. Qed.
Print Assumptions C64_lengths.
(** C64: every metric with enable_mapping scores the mapped predictions. *)
Theorem C64_used : forall lstsq m ys xs ps, length xs = length ys -> sigmoid_adjust lstsq (map Fin xs) (map Fin ys) = Ok ps ->
  perf_score lstsq m true (plain ys) (map Fin xs) = perf_evaluate m (map Fin ys) ps.
Proof. exact c64_used. Qed.
Print Assumptions C64_used.
Example C64_ex : slope w_lstsq (fun b => 0 < b) /\ slope w_lstsq (fun b => b <> 0) /\ slope w_lstsq_neg (fun b => b < 0) /\
  smallest 1 [1; 2; 4] /\ largest 4 [1; 2; 4] /\
  sigmoid_adjust w_lstsq (map Fin [5; 0; 7]) (map Fin [1; 2; 4]) = Ok (map (fun x => Fin (logistic (1 - 1/10) (4 + 1/10) 2 3 x)) [5; 0; 7]).
Proof.
  destruct w_slope as (A & B & C). destruct w_extremes as [D E]. repeat (split; [assumption|]).
  destruct (C64_formula w_lstsq [5; 0; 7] [1; 2; 4] 1 4 D E eq_refl) as (zs & _ & _ & _ & H). apply H; [lra|reflexivity].
Qed.

(** C75: Spearman's score is the Pearson coefficient of the average ranks. *)
Theorem C75_srcc : forall lstsq g p, length p = length g -> has_spread g -> has_spread p ->
  perf_score lstsq SRCC false (plain g) (map Fin p) = Ok (Fin (pearson (map (avg_rank g) g) (map (avg_rank p) p))) /\
  -1 <= pearson (map (avg_rank g) g) (map (avg_rank p) p) <= 1.
Proof. exact c75_srcc_exact. Qed.
Print Assumptions C75_srcc.
Theorem C75_kendall : forall lstsq g p, length p = length g -> has_spread g -> has_spread p ->
  exists r, perf_score lstsq KENDALL false (plain g) (map Fin p) = Ok (Fin r) /\ -1 <= r <= 1.
Proof. exact c75_kendall. Qed.
Print Assumptions C75_kendall.
Theorem C75_srcc_monotone : forall lstsq f h g p, length p = length g -> increasing_on g f -> increasing_on p h ->
  perf_score lstsq SRCC false (plain (map f g)) (map Fin (map h p)) = perf_score lstsq SRCC false (plain g) (map Fin p).
Proof. exact c75_srcc_monotone. Qed.
Print Assumptions C75_srcc_monotone.
Theorem C75_kendall_monotone : forall lstsq f h g p, length p = length g -> increasing_on g f -> increasing_on p h ->
  perf_score lstsq KENDALL false (plain (map f g)) (map Fin (map h p)) = perf_score lstsq KENDALL false (plain g) (map Fin p).
Proof. exact c75_kendall_monotone. Qed.
Print Assumptions C75_kendall_monotone.
Theorem C75_agreement : forall lstsq m f g, has_spread g -> increasing_on g f -> m = SRCC \/ m = KENDALL ->
  perf_score lstsq m false (plain g) (map Fin (map f g)) = Ok (Fin 1).
Proof. exact c75_agree. Qed.
Print Assumptions C75_agreement.
Theorem C75_opposition : forall lstsq m f g, has_spread g -> decreasing_on g f -> m = SRCC \/ m = KENDALL ->
  perf_score lstsq m false (plain g) (map Fin (map f g)) = Ok (Fin (-1)).
Proof. exact c75_oppose. Qed.
Print Assumptions C75_opposition.
Example C75_ex : has_spread [1; 2; 4] /\ has_spread [3; 1; 1] /\ increasing_on [1; 2; 4] (fun x => x * x) /\ decreasing_on [1; 2; 4] (fun x => / x).
Proof.
  destruct w_spread as [A B]. split; [exact A|]. split; [exact B|]. split; intros x y Hx Hy L; cbn in Hx, Hy;
    destruct Hx as [<-|[<-|[<-|[]]]], Hy as [<-|[<-|[<-|[]]]]; lra.
Qed.
