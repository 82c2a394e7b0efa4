(** Theorems for claims C87 (histograms, counts, logistic density) and C88
    (convolution of two densities). *)
From Coq Require Import Reals List Bool Arith ZArith Lra Lia.
From Verif Require Import PyBase Num NumPy ExtReal Stats SpecStats StatsProofs Stats2Proofs ConvolveProofs StatsWitness.
Import ListNotations.
Local Open Scope R_scope.

(** C87: get_cdf is the share of the data below the upper limit of each cell, one at the end. *)
Theorem C87_cdf : forall l n, l <> [] -> (0 < n)%nat -> exists lo hi, spans l lo hi /\
  get_cdf (map Fin l) (Z.of_nat n) =
    Ok (map (fun k => Fin (if Nat.eqb (S k) n then 1 else share_below l (limit lo hi n (S k)))) (seq 0 n),
        map (fun k => Fin (limit lo hi n (S k))) (seq 0 n)).
Proof. exact c87_cdf. Qed.
Print Assumptions C87_cdf.
Example C87_cdf_ex : get_cdf [Fin 1; Fin 2; Fin 2; Fin 5] 2 = Ok ([Fin (3 / 4); Fin 1], [Fin 3; Fin 5]).
Proof.
  destruct (C87_cdf [1; 2; 2; 5] 2 ltac:(discriminate) ltac:(lia)) as [lo [hi [S E]]]. destruct (w_spans lo hi S) as [-> ->].
  change (Z.of_nat 2) with 2%Z in E. cbn [map] in E. rewrite E. unfold share_below, limit. cbn [seq map Nat.eqb INR length filter].
  destruct (Rlt_dec 1 (1 + 1 * ((5 - 1) / (1 + 1)))); [|lra]. destruct (Rlt_dec 2 (1 + 1 * ((5 - 1) / (1 + 1)))); [|lra].
  destruct (Rlt_dec 5 (1 + 1 * ((5 - 1) / (1 + 1)))); [lra|]. cbn [length INR]. repeat f_equal; lra.
Qed.

(** C87: it never decreases, stays between 0 and 1 and ends with 1. *)
Theorem C87_monotone : forall l n cdf edges, l <> [] -> (0 < n)%nat -> get_cdf (map Fin l) (Z.of_nat n) = Ok (cdf, edges) ->
  length cdf = n /\ length edges = n /\
  (forall k, (k < n)%nat -> exists c, nth k cdf NaN = Fin c /\ 0 <= c <= 1) /\
  (forall i j a b, (i <= j < n)%nat -> nth i cdf NaN = Fin a -> nth j cdf NaN = Fin b -> a <= b) /\
  last cdf NaN = Fin 1.
Proof. exact c87_monotone. Qed.
Print Assumptions C87_monotone.
Example C87_monotone_ex : exists cdf edges, get_cdf (map Fin [3; 1; 3]) (Z.of_nat 7) = Ok (cdf, edges) /\ last cdf NaN = Fin 1.
Proof.
  destruct (C87_cdf [3; 1; 3] 7 ltac:(discriminate) ltac:(lia)) as [lo [hi [_ E]]]. eexists. eexists. split; [exact E|].
  exact (proj2 (proj2 (proj2 (proj2 (C87_monotone [3; 1; 3] 7 _ _ ltac:(discriminate) ltac:(lia) E))))).
Qed.

(** C87: get_pdf counts the data of each cell; as a density the counts are
    divided by their number and by the width; centres are the middles. *)
Theorem C87_pdf : forall l n, l <> [] -> (0 < n)%nat -> exists lo hi counts, spans l lo hi /\ length counts = n /\
  (forall k, (k < n)%nat -> number (in_cell lo hi n k) l (nth k counts 0%nat)) /\
  fold_right Nat.add 0%nat counts = length l /\
  get_pdf (map Fin l) (Z.of_nat n) true =
    Ok (map (fun c => Fin (INR c / INR (length l) / ((hi - lo) / INR n))) counts,
        map (fun k => Fin ((limit lo hi n k + limit lo hi n (S k)) / 2)) (seq 0 n)) /\
  get_pdf (map Fin l) (Z.of_nat n) false =
    Ok (map (fun c => Fin (INR c)) counts, map (fun k => Fin ((limit lo hi n k + limit lo hi n (S k)) / 2)) (seq 0 n)).
Proof. exact c87_pdf. Qed.
Print Assumptions C87_pdf.
Example C87_pdf_ex : get_pdf [Fin 1; Fin 2; Fin 2; Fin 5] 2 false = Ok ([Fin 3; Fin 1], [Fin 2; Fin 4]).
Proof.
  destruct (C87_pdf [1; 2; 2; 5] 2 ltac:(discriminate) ltac:(lia)) as [lo [hi [cs [S [L [N [T [_ E]]]]]]]]. destruct (w_spans lo hi S) as [-> ->].
  change (Z.of_nat 2) with 2%Z in E. cbn [map] in E. rewrite E.
  destruct cs as [|c0 [|c1 [|]]]; try discriminate. assert (N1 := N 1%nat ltac:(lia)). cbn [nth] in N1.
  assert (C1 : c1 = 1%nat).
  { refine (number_fun _ _ _ _ _ N1 _). unfold in_cell, limit. cbn [INR].
    apply number_no; [lra|]. apply number_no; [lra|]. apply number_no; [lra|]. apply number_yes; [|constructor]. split; [lra|]. right. split; [reflexivity|lra]. }
  cbn [fold_right length] in T. assert (C0 : c0 = 3%nat) by lia. subst. unfold limit. cbn [map seq INR]. repeat f_equal; lra.
Qed.

(** C87: the density is not negative and has total mass one. *)
Theorem C87_mass : forall l n, l <> [] -> (0 < n)%nat -> exists lo hi ps cs, spans l lo hi /\
  get_pdf (map Fin l) (Z.of_nat n) true = Ok (map Fin ps, cs) /\ length ps = n /\ (forall p, In p ps -> 0 <= p) /\
  Rsum (map (fun p => p * ((hi - lo) / INR n)) ps) = 1.
Proof. exact c87_mass. Qed.
Print Assumptions C87_mass.
Example C87_mass_ex : exists ps cs, get_pdf [Fin 7; Fin 7] 20 true = Ok (map Fin ps, cs) /\ length ps = 20%nat.
Proof.
  destruct (C87_mass [7; 7] 20 ltac:(discriminate) ltac:(lia)) as [lo [hi [ps [cs [_ [E [L _]]]]]]]. exists ps, cs. split; [exact E|exact L].
Qed.

(** C87: a number of cells below one and data that are not finite are refused. *)
Theorem C87_bins : forall (l : list ef) b d, (b < 1)%Z -> get_cdf l b = Err ValueError /\ get_pdf l b d = Err ValueError.
Proof. exact c87_bins. Qed.
Print Assumptions C87_bins.
Example C87_bins_ex : get_cdf [Fin 1; Fin 2] 0 = Err ValueError.
Proof. exact (proj1 (C87_bins [Fin 1; Fin 2] 0 true ltac:(lia))). Qed.
Theorem C87_nonfinite : forall l b d, Exists (fun x => ~ isfin x) l -> get_cdf l b = Err ValueError /\ get_pdf l b d = Err ValueError.
Proof. exact c87_nonfinite. Qed.
Print Assumptions C87_nonfinite.
Example C87_nonfinite_ex : get_cdf [Fin 1; NaN; Fin 2] 10 = Err ValueError.
Proof. refine (proj1 (C87_nonfinite _ 10 true _)). apply Exists_cons_tl, Exists_cons_hd. intros []. Qed.

(** C87: without data the counts are zero, the shares and densities missing. *)
Theorem C87_empty : forall n, (0 < n)%nat ->
  (exists e, get_cdf (@nil ef) (Z.of_nat n) = Ok (repeat NaN n, e)) /\
  (exists c, get_pdf (@nil ef) (Z.of_nat n) true = Ok (repeat NaN n, c)) /\
  (exists c, get_pdf (@nil ef) (Z.of_nat n) false = Ok (repeat (Fin 0) n, c)).
Proof. exact c87_empty. Qed.
Print Assumptions C87_empty.
Example C87_empty_ex : exists e, get_cdf (@nil ef) 2 = Ok ([NaN; NaN], e).
Proof. exact (proj1 (C87_empty 2 ltac:(lia))). Qed.

(** C87: histc counts every value that is not NaN, in order of first appearance. *)
Theorem C87_histc : forall s,
  map fst (histc s) = first_seen (filter (fun v => if ef_dec v NaN then false else true) s) /\
  (forall v c, In (v, c) (histc s) <-> v <> NaN /\ In v s /\ number (eq v) s c) /\
  number (fun v => v <> NaN) s (fold_right Nat.add 0%nat (map snd (histc s))).
Proof. exact c87_histc. Qed.
Print Assumptions C87_histc.
Example C87_histc_ex : In (Fin 4, 2%nat) (histc [Fin 4; NaN; Fin 3; Fin 4]).
Proof.
  apply (proj1 (proj2 (C87_histc _))). split; [discriminate|]. split; [left; reflexivity|].
  apply number_yes; [reflexivity|]. apply number_no; [discriminate|]. apply number_no; [intros [= E]; lra|]. apply number_yes; [reflexivity|constructor].
Qed.

(** C87: vectorized_logistic is the density of the logistic distribution, with its
    largest value at the location and symmetric about it; the form with sech
    is the same function. *)
Theorem C87_logistic : forall m s, 0 < s -> exists p,
  (forall x, logistic (Fin x) (Fin m) (Fin s) = Fin (p x) /\ logistic_density (Fin s) (nsub (Fin x) (Fin m)) = Fin (p x)) /\
  (forall x, derivable_pt_lim (logistic_cdf m s) x (p x)) /\
  (forall x, 0 < p x <= / (4 * s) /\ (p x = / (4 * s) <-> x = m)) /\
  (forall d, p (m + d) = p (m - d)).
Proof. exact c87_logistic. Qed.
Print Assumptions C87_logistic.
Example C87_logistic_ex : logistic (Fin 3) (Fin 3) (Fin 2) = Fin (/ 8).
Proof.
  destruct (C87_logistic 3 2 ltac:(lra)) as [p [V [_ [P _]]]]. rewrite (proj1 (V 3)). rewrite (proj2 (proj2 (P 3)) eq_refl). f_equal. lra.
Qed.
Theorem C87_logistic_total : forall m s eps, 0 < s -> 0 < eps -> exists a, 0 < a /\
  forall x, (m + a <= x -> 1 - eps < logistic_cdf m s x < 1) /\ (x <= m - a -> 0 < logistic_cdf m s x < eps).
Proof. exact cdf_limits. Qed.
Print Assumptions C87_logistic_total.
Example C87_logistic_total_ex : exists a, 0 < a /\ logistic_cdf 0 1 a > 99 / 100.
Proof. destruct (C87_logistic_total 0 1 (1 / 100) ltac:(lra) ltac:(lra)) as [a [A H]]. exists a. split; [exact A|]. destruct (proj1 (H a) ltac:(lra)). lra. Qed.

(** C88: at the points of the grid the value is the mass of the sum of two
    variables that sit at the middles of the cells, less than one step further. *)
Theorem C88_grid : forall f g F G ceil inverse delta ft gt a b N, conv_case f g F G ceil inverse Ok delta ft gt a b N ->
  exists sh, 0 <= sh < delta /\ forall k, (k < N)%nat ->
    snd (conv_pdf ceil inverse (conv_new F G (Fin delta) (Fin ft) (Fin gt)) (Fin (point (Rmax a b) delta k))) =
    Ok (Fin (sum_mass f g (Rmax a b) delta N (point (Rmax a b) delta k + sh) / delta)).
Proof. exact c88_grid_. Qed.
Print Assumptions C88_grid.
Example C88_grid_ex : conv_case triangle triangle triangleF triangleF (fun _ => 2%nat) (fun _ _ => Ok (Fin 1)) Ok 1 0 0 1 1 2 /\
  snd (conv_pdf (fun _ => 2%nat) (fun _ _ => Ok (Fin 1)) tri_conv (Fin 0)) = Ok (Fin 1).
Proof. split; [exact triangle_case|exact (proj2 triangle_values)]. Qed.

(** C88: on a straight line between two points of the grid. *)
Theorem C88_line : forall f g F G ceil inverse delta ft gt a b N, conv_case f g F G ceil inverse Ok delta ft gt a b N ->
  forall k x, (S k < N)%nat -> point (Rmax a b) delta k <= x <= point (Rmax a b) delta (S k) -> exists u v,
    snd (conv_pdf ceil inverse (conv_new F G (Fin delta) (Fin ft) (Fin gt)) (Fin (point (Rmax a b) delta k))) = Ok (Fin u) /\
    snd (conv_pdf ceil inverse (conv_new F G (Fin delta) (Fin ft) (Fin gt)) (Fin (point (Rmax a b) delta (S k)))) = Ok (Fin v) /\
    snd (conv_pdf ceil inverse (conv_new F G (Fin delta) (Fin ft) (Fin gt)) (Fin x)) = Ok (Fin (u + (v - u) * ((x - point (Rmax a b) delta k) / delta))).
Proof. exact c88_line_. Qed.
Print Assumptions C88_line.
Example C88_line_ex : snd (conv_pdf (fun _ => 2%nat) (fun _ _ => Ok (Fin 1)) tri_conv (Fin (- / 2))) = Ok (Fin (5 / 8)).
Proof.
  destruct (C88_line _ _ _ _ _ _ _ _ _ _ _ _ triangle_case 0 (- / 2) ltac:(lia)) as [u [v [U [V E]]]]; [unfold point; rewrite Rmax_left by lra; cbn [INR]; lra|].
  fold tri_conv in U, V, E. rewrite Rmax_left in U, V, E by lra. unfold point in U, V, E. cbn [INR] in U, V, E.
  replace (-(1) + 0 * 1) with (-1) in U by lra. replace (-(1) + 1 * 1) with 0 in V by lra. rewrite (proj1 triangle_values) in U. rewrite (proj2 triangle_values) in V.
  injection U as <-. injection V as <-. rewrite E. f_equal. f_equal. lra.
Qed.

(** C88: outside the grid the product of the truncations. *)
Theorem C88_outside : forall f g F G ceil inverse delta ft gt a b N, conv_case f g F G ceil inverse Ok delta ft gt a b N ->
  forall x, x < - Rmax a b \/ point (Rmax a b) delta (N - 1) < x ->
    snd (conv_pdf ceil inverse (conv_new F G (Fin delta) (Fin ft) (Fin gt)) (Fin x)) = Ok (Fin (ft * gt)).
Proof. exact c88_outside_. Qed.
Print Assumptions C88_outside.
Example C88_outside_ex : snd (conv_pdf (fun _ => 2%nat) (fun _ _ => Ok (Fin 1)) tri_conv (Fin 7)) = Ok (Fin (0 * 0)).
Proof. apply (C88_outside _ _ _ _ _ _ _ _ _ _ _ _ triangle_case). right. unfold point. rewrite Rmax_left by lra. cbn [Nat.sub INR]. lra. Qed.

(** C88: values are not negative, and the total mass is at most the product of the masses. *)
Theorem C88_nonneg : forall f g F G ceil inverse delta ft gt a b N, conv_case f g F G ceil inverse Ok delta ft gt a b N ->
  (forall x, 0 <= f x) -> (forall x, 0 <= g x) -> 0 <= ft * gt ->
  forall x, exists y, snd (conv_pdf ceil inverse (conv_new F G (Fin delta) (Fin ft) (Fin gt)) (Fin x)) = Ok (Fin y) /\ 0 <= y.
Proof. exact c88_nonneg_. Qed.
Print Assumptions C88_nonneg.
Theorem C88_mass : forall f g F G ceil inverse delta ft gt a b N, conv_case f g F G ceil inverse Ok delta ft gt a b N ->
  (forall x, 0 <= f x) -> (forall x, 0 <= g x) -> exists v,
  (forall k, (k < N)%nat -> snd (conv_pdf ceil inverse (conv_new F G (Fin delta) (Fin ft) (Fin gt)) (Fin (point (Rmax a b) delta k))) = Ok (Fin (v k))) /\
  Rsum (map (fun k => v k * delta) (seq 0 N)) <= Rsum (map (cell_mass f (Rmax a b) delta N) (seq 0 N)) * Rsum (map (cell_mass g (Rmax a b) delta N) (seq 0 N)).
Proof. exact c88_mass_. Qed.
Print Assumptions C88_mass.
Example C88_mass_ex : exists y, snd (conv_pdf (fun _ => 2%nat) (fun _ _ => Ok (Fin 1)) tri_conv (Fin (- / 3))) = Ok (Fin y) /\ 0 <= y.
Proof.
  apply (C88_nonneg _ _ _ _ _ _ _ _ _ _ _ _ triangle_case); [intro; apply triangle_even|intro; apply triangle_even|lra].
Qed.

(** C88: the order of the two densities does not matter. *)
Theorem C88_swap : forall f g F G ceil inverse delta ft gt a b N x, conv_case f g F G ceil inverse Ok delta ft gt a b N ->
  snd (conv_pdf ceil inverse (conv_new F G (Fin delta) (Fin ft) (Fin gt)) x) = snd (conv_pdf ceil inverse (conv_new G F (Fin delta) (Fin gt) (Fin ft)) x).
Proof. exact c88_swap. Qed.
Print Assumptions C88_swap.
Example C88_swap_ex : exists f g F G inverse, F <> G /\ conv_case f g F G (fun _ => 2%nat) inverse Ok 1 0 0 1 1 2.
Proof.
  exists triangle, (fun x => 2 * triangle x), triangleF, (fun x => nmul (Fin 2) (triangleF x)), (fun _ _ => Ok (Fin 1)). split.
  - intro E. assert (E0 := f_equal (fun q => q (Fin 0)) E). cbn in E0. injection E0 as E0. rewrite triangle_0 in E0. lra.
  - destruct triangle_case as (_ & _ & K). split; [reflexivity|]. split; [reflexivity|exact K].
Qed.

(** C88: later evaluations of the same object agree with a fresh one. *)
Theorem C88_calls : forall ceil inverse (f g : ef -> ef) delta ft gt xs,
  conv_calls ceil inverse (conv_new f g delta ft gt) xs = map (fun x => snd (conv_pdf ceil inverse (conv_new f g delta ft gt) x)) xs.
Proof. exact c88_calls. Qed.
Print Assumptions C88_calls.
Example C88_calls_ex : conv_calls (fun _ => 2%nat) (fun _ _ => Ok (Fin 1)) tri_conv [Fin 0; Fin (-1)] = [Ok (Fin 1); Ok (Fin (/ 4))].
Proof. unfold tri_conv. rewrite C88_calls. fold tri_conv. cbn [map]. rewrite (proj1 triangle_values), (proj2 triangle_values). reflexivity. Qed.

(** C88: a truncation that is not reached to the right of zero is refused. *)
Theorem C88_refuse : forall ceil inverse (f g : ef -> ef) delta ft gt u v x, inverse f ft = Ok u -> inverse g gt = Ok v ->
  (forall r, u = Fin r -> r <= 0) /\ u <> PInf \/ (forall r, v = Fin r -> r <= 0) /\ v <> PInf ->
  snd (conv_pdf ceil inverse (conv_new f g delta ft gt) x) = Err AssertionError.
Proof. exact c88_refuse. Qed.
Print Assumptions C88_refuse.
Example C88_refuse_ex : snd (conv_pdf (fun _ => 2%nat) (fun _ _ => Ok NaN) tri_conv (Fin 0)) = Err AssertionError.
Proof. refine (C88_refuse _ (fun _ _ => Ok NaN) _ _ _ _ _ NaN NaN _ eq_refl eq_refl _). left. split; [intros; discriminate|discriminate]. Qed.

(** C88: for two symmetric densities the result need not be symmetric. *)
Theorem C88_symmetric_refuted : exists f F ceil inverse delta ft a N x u v,
  conv_case f f F F ceil inverse Ok delta ft ft a a N /\ (forall y, 0 <= f y /\ f y = f (- y)) /\ f a = ft /\
  snd (conv_pdf ceil inverse (conv_new F F (Fin delta) (Fin ft) (Fin ft)) (Fin x)) = Ok (Fin u) /\
  snd (conv_pdf ceil inverse (conv_new F F (Fin delta) (Fin ft) (Fin ft)) (Fin (- x))) = Ok (Fin v) /\ u <> v.
Proof. exact c88_symmetric_refuted. Qed.
Print Assumptions C88_symmetric_refuted.
