(** Metrics: RMSE, Pearson. *)
From Coq Require Import List ZArith Bool Arith Reals Lia Lra.
From Verif Require Import PyBase Num ExtReal NumPy ExtRealProofs SpecMos Preproc Reject2Proofs Perf SpecPerf.
Import ListNotations.
Local Open Scope R_scope.

(** ** Sums of products *)
Definition S11 (l : list (R * R)) := Rsum (map (fun q => fst q * fst q) l).
Definition S22 (l : list (R * R)) := Rsum (map (fun q => snd q * snd q) l).
Definition S12 (l : list (R * R)) := Rsum (map (fun q => fst q * snd q) l).
Lemma S11_nonneg : forall l, 0 <= S11 l.
Proof. intro l. apply Rsum_nonneg. intros x H. apply in_map_iff in H. destruct H as (q & <- & _). apply Rle_0_sqr. Qed.
Lemma S22_nonneg : forall l, 0 <= S22 l.
Proof. intro l. apply Rsum_nonneg. intros x H. apply in_map_iff in H. destruct H as (q & <- & _). apply Rle_0_sqr. Qed.
Lemma cauchy : forall l, S12 l * S12 l <= S11 l * S22 l.
Proof.
  induction l as [|[x y] l IH]; [unfold S11, S22, S12; cbn; lra|].
  unfold S11, S22, S12 in *. cbn [map fst snd]. rewrite !Rsum_cons. fold (S11 l) (S22 l) (S12 l) in *.
  assert (A0 := S11_nonneg l). assert (B0 := S22_nonneg l). set (A := S11 l) in *. set (B := S22 l) in *. set (C := S12 l) in *.
  assert (K : 0 <= A * (y * y) + B * (x * x) - 2 * C * (x * y)).
  { destruct A0 as [A0|A0].
    - assert (P : 0 <= A * (A * (y * y) + B * (x * x) - 2 * C * (x * y))).
      { replace (A * (A * (y * y) + B * (x * x) - 2 * C * (x * y))) with ((A * y - C * x) * (A * y - C * x) + (A * B - C * C) * (x * x)) by ring.
        assert (Q1 := Rle_0_sqr (A * y - C * x)). assert (Q2 := Rle_0_sqr x). unfold Rsqr in *. assert (0 <= (A * B - C * C) * (x * x)) by (apply Rmult_le_pos; lra). lra. }
      apply Rmult_le_reg_l with A; lra.
    - rewrite <- A0 in *. assert (C = 0) by (apply Rsqr_0_uniq; assert (0 <= C * C) by apply Rle_0_sqr; unfold Rsqr; lra).
      subst C. replace (S12 l) with 0. assert (Q2 := Rle_0_sqr x). unfold Rsqr in *. assert (0 <= B * (x * x)) by (apply Rmult_le_pos; lra). lra. }
  lra.
Qed.
Lemma cauchy_sqrt : forall l, Rabs (S12 l) <= sqrt (S11 l) * sqrt (S22 l).
Proof.
  intro l. rewrite <- sqrt_mult by (apply S11_nonneg || apply S22_nonneg). rewrite <- sqrt_Rsqr_abs. apply sqrt_le_1_alt. apply cauchy.
Qed.
Lemma minkowski : forall l, sqrt (Rsum (map (fun q => (fst q + snd q) * (fst q + snd q)) l)) <= sqrt (S11 l) + sqrt (S22 l).
Proof.
  intro l. assert (E : Rsum (map (fun q => (fst q + snd q) * (fst q + snd q)) l) = S11 l + 2 * S12 l + S22 l).
  { unfold S11, S12, S22. rewrite <- Rsum_map_mul. rewrite <- !Rsum_map_add. apply Rsum_map_ext. intros q _. ring. }
  rewrite E. assert (H1 := sqrt_pos (S11 l)). assert (H2 := sqrt_pos (S22 l)).
  rewrite <- (sqrt_square (sqrt (S11 l) + sqrt (S22 l))) by lra. apply sqrt_le_1_alt.
  assert (Q1 := sqrt_sqrt _ (S11_nonneg l)). assert (Q2 := sqrt_sqrt _ (S22_nonneg l)). assert (C := cauchy_sqrt l).
  assert (S12 l <= sqrt (S11 l) * sqrt (S22 l)) by (eapply Rle_trans; [apply Rle_abs|exact C]).
  replace ((sqrt (S11 l) + sqrt (S22 l)) * (sqrt (S11 l) + sqrt (S22 l))) with (sqrt (S11 l) * sqrt (S11 l) + 2 * (sqrt (S11 l) * sqrt (S22 l)) + sqrt (S22 l) * sqrt (S22 l)) by ring.
  lra.
Qed.

(** ** RMSE *)
Lemma rmse_Fin : forall g p, g <> [] -> length p = length g -> rmse (map Fin g) (map Fin p) = Fin (distance g p).
Proof.
  intros g p Ng L. unfold rmse, distance. rewrite combine_map2, map_map.
  rewrite (map_ext _ (fun q => Fin ((fst q - snd q) * (fst q - snd q)))) by (intro; reflexivity).
  rewrite <- (map_map (fun q : R * R => (fst q - snd q) * (fst q - snd q)) Fin). rewrite np_mean_Fin.
  assert (NE : map (fun q : R * R => (fst q - snd q) * (fst q - snd q)) (combine g p) <> []).
  { destruct g; [congruence|]. destruct p; [discriminate|]. discriminate. }
  rewrite nanmeanR_ne by exact NE. unfold Rmean. rewrite map_length, combine_length, L, Nat.min_id. efc. apply ef_sqrt_Fin.
  apply Rmult_le_pos; [|apply Rlt_le, Rinv_0_lt_compat, INR_len_pos, Ng].
  apply Rsum_nonneg. intros x H. apply in_map_iff in H. destruct H as (q & <- & _). apply Rle_0_sqr.
Qed.
Lemma aggregate_plain : forall g, map aggregate (plain g) = map Fin g.
Proof. intro g. unfold plain. rewrite map_map. reflexivity. Qed.
Lemma score_plain : forall lstsq m g p, length p = length g -> perf_score lstsq m false (plain g) (map Fin p) = perf_evaluate m (map Fin g) (map Fin p).
Proof.
  intros lstsq m g p L. unfold perf_score, perf_preprocess, plain. rewrite !map_length, L, Nat.eqb_refl. cbn [assert_ bind]. rewrite map_map. reflexivity.
Qed.
Lemma c63_rmse : forall lstsq g p, g <> [] -> length p = length g -> perf_score lstsq RMSE false (plain g) (map Fin p) = Ok (Fin (distance g p)).
Proof. intros. rewrite score_plain by assumption. cbn [perf_evaluate]. rewrite rmse_Fin by assumption. reflexivity. Qed.
Lemma distance_nonneg : forall g p, 0 <= distance g p.
Proof. intros. apply sqrt_pos. Qed.
Lemma combine_swap : forall (A B : Type) (l : list A) (k : list B), combine k l = map (fun q => (snd q, fst q)) (combine l k).
Proof. induction l as [|x l IH]; intros [|y k]; cbn; try reflexivity. rewrite IH. reflexivity. Qed.
Lemma distance_sym : forall g p, length p = length g -> distance g p = distance p g.
Proof.
  intros g p L. unfold distance. rewrite L. f_equal. f_equal. rewrite (combine_swap _ _ g p), map_map. apply Rsum_map_ext. intros q _. cbn [fst snd]. ring.
Qed.
Lemma sqsum_nonneg : forall l : list (R * R), 0 <= Rsum (map (fun q => (fst q - snd q) * (fst q - snd q)) l).
Proof. intro l. apply Rsum_nonneg. intros x H. apply in_map_iff in H. destruct H as (q & <- & _). apply Rle_0_sqr. Qed.
Lemma distance_zero : forall g p, g <> [] -> length p = length g -> (distance g p = 0 <-> g = p).
Proof.
  intros g p Ng L. assert (P := INR_len_pos _ g Ng). unfold distance. split.
  - intro H. apply sqrt_eq_0 in H.
    + assert (Z : Rsum (map (fun q => (fst q - snd q) * (fst q - snd q)) (combine g p)) = 0).
      { apply Rmult_eq_reg_r with (/ INR (length g)); [|apply Rgt_not_eq, Rinv_0_lt_compat, P]. rewrite Rmult_0_l. exact H. }
      assert (E : forall q, In q (combine g p) -> fst q = snd q).
      { intros q I. assert (Q : (fst q - snd q) * (fst q - snd q) = 0).
        { apply Rsum_eq0 with (l := map (fun q => (fst q - snd q) * (fst q - snd q)) (combine g p)); [|exact Z|apply in_map_iff; exists q; auto].
          intros x Hx. apply in_map_iff in Hx. destruct Hx as (q' & <- & _). apply Rle_0_sqr. }
        apply Rsqr_0_uniq in Q. lra. }
      clear - L E. revert p L E. induction g as [|x g IH]; intros [|y p] L E; cbn in *; try discriminate; [reflexivity|].
      f_equal; [apply (E (x, y)); left; reflexivity|]. apply IH; [lia|]. intros q Hq. apply E. right. exact Hq.
    + apply Rmult_le_pos; [apply sqsum_nonneg|apply Rlt_le, Rinv_0_lt_compat, P].
  - intros <-. replace (Rsum (map (fun q => (fst q - snd q) * (fst q - snd q)) (combine g g))) with 0; [unfold Rdiv; rewrite Rmult_0_l; apply sqrt_0|].
    symmetry. clear. induction g as [|x g IH]; [reflexivity|]. cbn [combine map fst snd]. rewrite Rsum_cons, IH. ring.
Qed.
Lemma distance_triangle : forall a b c, a <> [] -> length b = length a -> length c = length a -> distance a c <= distance a b + distance b c.
Proof.
  intros a b c Na Lb Lc. assert (P := INR_len_pos _ a Na). unfold distance. rewrite Lb.
  rewrite !sqrt_div by (apply sqsum_nonneg || exact P). unfold Rdiv. rewrite <- Rmult_plus_distr_r.
  apply Rmult_le_compat_r; [apply Rlt_le, Rinv_0_lt_compat, sqrt_lt_R0, P|].
  set (l := combine (map (fun q => fst q - snd q) (combine a b)) (map (fun q => fst q - snd q) (combine b c))).
  assert (M := minkowski l).
  assert (E : Rsum (map (fun q => (fst q + snd q) * (fst q + snd q)) l) = Rsum (map (fun q => (fst q - snd q) * (fst q - snd q)) (combine a c)) /\
              S11 l = Rsum (map (fun q => (fst q - snd q) * (fst q - snd q)) (combine a b)) /\
              S22 l = Rsum (map (fun q => (fst q - snd q) * (fst q - snd q)) (combine b c))).
  { unfold l, S11, S22. clear - Lb Lc. revert b c Lb Lc. induction a as [|x a IH]; intros [|y b] [|z c] Lb Lc; cbn in Lb, Lc; try discriminate; [repeat split|].
    cbn [combine map fst snd]. rewrite !Rsum_cons. destruct (IH b c) as (E1 & E2 & E3); [lia|lia|]. rewrite E1, E2, E3. repeat split; ring. }
  destruct E as (E1 & E2 & E3). rewrite E1, E2, E3 in M. exact M.
Qed.

(** ** Pearson *)
Lemma combine_le_l : forall (f : R -> R) (x y : list R), (forall v, 0 <= f v) -> Rsum (map (fun q => f (fst q)) (combine x y)) <= Rsum (map f x).
Proof.
  intros f x y F. revert y. induction x as [|a x IH]; intros [|b y]; cbn [combine map fst]; try apply Rle_refl.
  - apply Rsum_nonneg. intros v H. change (In v (map f (a :: x))) in H. apply in_map_iff in H. destruct H as (q & <- & _). apply F.
  - rewrite !Rsum_cons. generalize (IH y). lra.
Qed.
Lemma combine_le_r : forall (f : R -> R) (x y : list R), (forall v, 0 <= f v) -> Rsum (map (fun q => f (snd q)) (combine x y)) <= Rsum (map f y).
Proof.
  intros f x y F. rewrite (combine_swap _ _ y x), map_map. cbn [snd]. apply combine_le_l, F.
Qed.
Lemma pearson_bounds : forall x y, has_spread x -> has_spread y -> -1 <= pearson x y <= 1.
Proof.
  intros x y Sx Sy. apply spread_pos in Sx, Sy. unfold pearson.
  assert (D : 0 < sqrt (sumsq (Rmean x) x) * sqrt (sumsq (Rmean y) y)) by (apply Rmult_lt_0_compat; apply sqrt_lt_R0; assumption).
  set (l := map (fun q => (fst q - Rmean x, snd q - Rmean y)) (combine x y)).
  assert (C := cauchy_sqrt l). assert (E : S12 l = covsum x y) by (unfold S12, covsum, l; rewrite map_map; reflexivity).
  assert (A : S11 l <= sumsq (Rmean x) x) by (unfold S11, l, sumsq; rewrite map_map; cbn [fst]; apply (combine_le_l (fun v => (v - Rmean x) * (v - Rmean x))); intro; apply Rle_0_sqr).
  assert (B : S22 l <= sumsq (Rmean y) y) by (unfold S22, l, sumsq; rewrite map_map; cbn [snd]; apply (combine_le_r (fun v => (v - Rmean y) * (v - Rmean y))); intro; apply Rle_0_sqr).
  assert (F : Rabs (covsum x y) <= sqrt (sumsq (Rmean x) x) * sqrt (sumsq (Rmean y) y)).
  { rewrite <- E. eapply Rle_trans; [exact C|]. apply Rmult_le_compat; try apply sqrt_pos; apply sqrt_le_1_alt; assumption. }
  set (d := sqrt (sumsq (Rmean x) x) * sqrt (sumsq (Rmean y) y)) in *. assert (F1 : - d <= covsum x y <= d) by (unfold Rabs in F; destruct (Rcase_abs (covsum x y)); lra).
  split.
  - apply Rmult_le_reg_r with d; [exact D|]. unfold Rdiv. rewrite Rmult_assoc, Rinv_l by lra. lra.
  - apply Rmult_le_reg_r with d; [exact D|]. unfold Rdiv. rewrite Rmult_assoc, Rinv_l by lra. lra.
Qed.

Lemma covsum_affine : forall a c x y, x <> [] -> covsum (map (fun v => a * v + c) x) y = a * covsum x y.
Proof.
  intros a c x y Nx. unfold covsum. rewrite Rmean_affine by exact Nx.
  assert (E : combine (map (fun v => a * v + c) x) y = map (fun q => (a * fst q + c, snd q)) (combine x y)).
  { clear. revert y. induction x as [|v x IH]; intros [|w y]; cbn; try reflexivity. rewrite IH. reflexivity. }
  rewrite E, map_map. rewrite <- Rsum_map_mul. apply Rsum_map_ext. intros q _. cbn [fst snd]. ring.
Qed.
Lemma covsum_sym : forall x y, covsum x y = covsum y x.
Proof. intros. unfold covsum. rewrite (combine_swap _ _ x y), map_map. apply Rsum_map_ext. intros q _. cbn [fst snd]. ring. Qed.
Lemma pearson_sym : forall x y, pearson x y = pearson y x.
Proof. intros. unfold pearson. rewrite covsum_sym. f_equal. ring. Qed.
Lemma sumsq_affine : forall a c x, x <> [] -> sumsq (Rmean (map (fun v => a * v + c) x)) (map (fun v => a * v + c) x) = a * a * sumsq (Rmean x) x.
Proof.
  intros a c x Nx. rewrite Rmean_affine by exact Nx. unfold sumsq. rewrite map_map, <- Rsum_map_mul. apply Rsum_map_ext. intros v _. ring.
Qed.
Lemma sumsq_nonneg : forall m x, 0 <= sumsq m x.
Proof. intros. apply Rsum_nonneg. intros z H. apply in_map_iff in H. destruct H as (q & <- & _). apply Rle_0_sqr. Qed.
Lemma pearson_affine : forall a c x y, 0 < a -> has_spread x -> has_spread y -> pearson (map (fun v => a * v + c) x) y = pearson x y.
Proof.
  intros a c x y Ha Sx Sy. assert (Nx : x <> []) by (destruct Sx as (u & v & H & _); destruct x; [contradiction|discriminate]).
  apply spread_pos in Sx, Sy. unfold pearson. rewrite covsum_affine, sumsq_affine by exact Nx.
  rewrite sqrt_mult by (try apply sumsq_nonneg; nra). rewrite sqrt_square by lra. apply sqrt_lt_R0 in Sx, Sy. field. lra.
Qed.
Lemma spread_affine : forall a c x, 0 < a -> (has_spread (map (fun v => a * v + c) x) <-> has_spread x).
Proof.
  intros a c x Ha. split.
  - intros (u & v & Hu & Hv & D). apply in_map_iff in Hu, Hv. destruct Hu as (u' & <- & Iu), Hv as (v' & <- & Iv). exists u', v'. repeat split; auto. intros ->. apply D. reflexivity.
  - intros (u & v & Hu & Hv & D). exists (a * u + c), (a * v + c). repeat split; try (apply in_map_iff; eexists; split; [reflexivity|assumption]).
    intro E. apply D. apply Rmult_eq_reg_l with a; lra.
Qed.
Lemma spread_dec : forall l, {has_spread l} + {~ has_spread l}.
Proof.
  intro l. destruct (Rlt_dec 0 (sumsq (Rmean l) l)) as [H|H]; [left; apply spread_pos, H|right]. intro S. apply spread_pos in S. contradiction.
Qed.
Lemma pearsonr_value : forall x y, (2 <= length x)%nat -> length y = length x ->
  sp_pearsonr (map Fin x) (map Fin y) = Ok (if spread_dec x then if spread_dec y then Fin (pearson x y) else NaN else NaN).
Proof.
  intros x y Lx Ly. rewrite pearsonr_Fin by assumption.
  assert (Z : forall l k, length k = length l -> ~ has_spread l -> covsum l k = 0 /\ sumsq (Rmean l) l = 0).
  { intros l k Lk H. assert (S0 : sumsq (Rmean l) l = 0).
    { destruct (Rlt_dec 0 (sumsq (Rmean l) l)) as [P|P]; [exfalso; apply H, spread_pos, P|]. generalize (sumsq_nonneg (Rmean l) l). lra. }
    split; [|exact S0]. set (q := map (fun p => (fst p - Rmean l, snd p - Rmean k)) (combine l k)).
    assert (C := cauchy q). assert (E : S12 q = covsum l k) by (unfold S12, covsum, q; rewrite map_map; reflexivity).
    assert (A : S11 q <= sumsq (Rmean l) l) by (unfold S11, q, sumsq; rewrite map_map; cbn [fst]; apply (combine_le_l (fun v => (v - Rmean l) * (v - Rmean l))); intro; apply Rle_0_sqr).
    assert (A0 : S11 q = 0) by (generalize (S11_nonneg q); lra). rewrite A0, E in C. apply Rsqr_0_uniq. unfold Rsqr. assert (0 <= covsum l k * covsum l k) by apply Rle_0_sqr. lra. }
  f_equal. destruct (spread_dec x) as [Sx|Sx]; [destruct (spread_dec y) as [Sy|Sy]|].
  - apply spread_pos in Sx, Sy. rewrite ef_div_Fin; [reflexivity|]. apply Rgt_not_eq, Rmult_lt_0_compat; apply sqrt_lt_R0; assumption.
  - destruct (Z y x (eq_sym Ly) Sy) as [C S]. rewrite covsum_sym, C, S, sqrt_0, Rmult_0_r. apply ef_0div0.
  - destruct (Z x y Ly Sx) as [C S]. rewrite C, S, sqrt_0, Rmult_0_l. apply ef_0div0.
Qed.
Lemma c63_pcc : forall lstsq g p, (2 <= length g)%nat -> length p = length g -> has_spread g -> has_spread p ->
  exists r, perf_score lstsq PCC false (plain g) (map Fin p) = Ok (Fin r) /\ -1 <= r <= 1.
Proof.
  intros lstsq g p L E Sg Sp. exists (pearson g p). split; [|apply pearson_bounds; assumption].
  rewrite score_plain by exact E. cbn [perf_evaluate]. rewrite pearsonr_value by assumption. destruct (spread_dec g); [|contradiction]. destruct (spread_dec p); [reflexivity|contradiction].
Qed.
Lemma c63_pcc_constant : forall lstsq g p, (2 <= length g)%nat -> length p = length g -> ~ (has_spread g /\ has_spread p) ->
  perf_score lstsq PCC false (plain g) (map Fin p) = Ok NaN.
Proof.
  intros lstsq g p L E H. rewrite score_plain by exact E. cbn [perf_evaluate]. rewrite pearsonr_value by assumption.
  destruct (spread_dec g); [|reflexivity]. destruct (spread_dec p); [exfalso; apply H; auto|reflexivity].
Qed.
Lemma c63_pcc_affine : forall lstsq a c a' c' g p, 0 < a -> 0 < a' -> length p = length g ->
  perf_score lstsq PCC false (plain (map (fun v => a * v + c) g)) (map Fin (map (fun v => a' * v + c') p)) = perf_score lstsq PCC false (plain g) (map Fin p).
Proof.
  intros lstsq a c a' c' g p Ha Ha' E. rewrite !score_plain by (rewrite ?map_length; exact E). cbn [perf_evaluate].
  destruct (Nat.lt_ge_cases (length g) 2) as [L|L].
  - unfold sp_pearsonr. rewrite !map_length. destruct (Nat.ltb_spec (length g) 2); [reflexivity|lia].
  - rewrite !pearsonr_value by (rewrite ?map_length; assumption). f_equal.
    assert (Q1 := spread_affine a c g Ha). assert (Q2 := spread_affine a' c' p Ha').
    destruct (spread_dec (map (fun v => a * v + c) g)) as [S1|S1]; destruct (spread_dec g) as [S2|S2]; try tauto.
    destruct (spread_dec (map (fun v => a' * v + c') p)) as [S3|S3]; destruct (spread_dec p) as [S4|S4]; try tauto.
    f_equal. rewrite pearson_affine by assumption. rewrite pearson_sym, pearson_affine by assumption. apply pearson_sym.
Qed.
Lemma c63_short : forall lstsq x y, perf_score lstsq PCC false (plain [x]) [Fin y] = Err ValueError.
Proof. reflexivity. Qed.

(** Raw scores count through their mean. *)
Lemma c63_raw : forall lstsq m mapping gts p, (forall l, In (RawScores l) gts -> exists v, v <> [] /\ l = map Fin v) ->
  perf_score lstsq m mapping gts p =
  perf_score lstsq m mapping (map (fun t => match t with Aggregate x => Aggregate x | RawScores l => Aggregate (Fin (Rmean (presents l))) end) gts) p.
Proof.
  intros lstsq m mapping gts p H. unfold perf_score, perf_preprocess. rewrite !map_length, map_map.
  rewrite (map_ext_in aggregate (fun x => aggregate match x with Aggregate x0 => Aggregate x0 | RawScores l => Aggregate (Fin (Rmean (presents l))) end)); [reflexivity|].
  intros [x|l] I; [reflexivity|]. destruct (H l I) as (v & Nv & ->). cbn [aggregate]. rewrite np_mean_Fin, presents_map_Fin, nanmeanR_ne by exact Nv. reflexivity.
Qed.
Lemma c63_lengths : forall lstsq m mapping gts p, length gts <> length p -> perf_score lstsq m mapping gts p = Err AssertionError.
Proof. intros. unfold perf_score. destruct (Nat.eqb_spec (length gts) (length p)); [contradiction|reflexivity]. Qed.

(** ** Rank statistics *)
Lemma count_map : forall (A B : Type) (f : B -> bool) (g : A -> B) l, count_if f (map g l) = count_if (fun x => f (g x)) l.
Proof. intros. unfold count_if. induction l as [|x l IH]; cbn; [reflexivity|]. destruct (f (g x)); cbn; lia. Qed.
Lemma count_ext : forall (A : Type) (f g : A -> bool) l, (forall x, In x l -> f x = g x) -> count_if f l = count_if g l.
Proof. intros. unfold count_if. f_equal. apply filter_ext_in. assumption. Qed.
Lemma mono_cmp : forall l f x y, increasing_on l f -> In x l -> In y l -> (f x < f y <-> x < y) /\ (f x = f y <-> x = y).
Proof.
  intros l f x y M Ix Iy. destruct (Rtotal_order x y) as [H|[->|H]].
  - assert (Q := M x y Ix Iy H). repeat split; intros; try lra.
  - repeat split; intros; lra.
  - assert (Q := M y x Iy Ix H). repeat split; intros; lra.
Qed.
Lemma rank_mono : forall l f, increasing_on l f -> rankdata (map Fin (map f l)) = rankdata (map Fin l).
Proof.
  intros l f M. unfold rankdata. rewrite !map_map. apply map_ext_in. intros x Ix. rewrite !count_map.
  assert (E1 : count_if (fun y => nltb (Fin (f y)) (Fin (f x))) l = count_if (fun y => nltb (Fin y) (Fin x)) l).
  { apply count_ext. intros y Iy. change (Rltb (f y) (f x) = Rltb y x). destruct (mono_cmp l f y x M Iy Ix) as [C _]. unfold Rltb. destruct (Rlt_dec (f y) (f x)), (Rlt_dec y x); tauto. }
  assert (E2 : count_if (fun y => neqb (Fin (f y)) (Fin (f x))) l = count_if (fun y => neqb (Fin y) (Fin x)) l).
  { apply count_ext. intros y Iy. change (Reqbb (f y) (f x) = Reqbb y x). destruct (mono_cmp l f y x M Iy Ix) as [_ C]. unfold Reqbb. destruct (Req_EM_T (f y) (f x)), (Req_EM_T y x); tauto. }
  rewrite E1, E2. reflexivity.
Qed.
Lemma c75_srcc_monotone : forall lstsq f h g p, length p = length g -> increasing_on g f -> increasing_on p h ->
  perf_score lstsq SRCC false (plain (map f g)) (map Fin (map h p)) = perf_score lstsq SRCC false (plain g) (map Fin p).
Proof.
  intros lstsq f h g p E M1 M2. rewrite !score_plain by (rewrite ?map_length; exact E). cbn [perf_evaluate]. unfold sp_spearmanr.
  rewrite !rank_mono by assumption. rewrite !map_length. reflexivity.
Qed.

(** Average ranks as numbers. *)
Definition rankR (l : list R) (x : R) : R := INR (count_if (fun y => Rltb y x) l) + (INR (count_if (fun y => Reqbb y x) l) + 1) / 2.
Lemma rankdata_Fin : forall l, rankdata (map Fin l) = map Fin (map (rankR l) l).
Proof.
  intro l. unfold rankdata. rewrite !map_map. apply map_ext. intro x. rewrite !count_map, !nofnat_ef. unfold rankR, none_. efc. cbn [ef_add].
  rewrite ef_div_Fin by lra. reflexivity.
Qed.
Lemma rank_lt : forall l x y, In x l -> x < y -> rankR l x < rankR l y.
Proof.
  intros l x y Ix L. unfold rankR.
  assert (C : (count_if (fun z => Rltb z x) l + count_if (fun z => Reqbb z x) l <= count_if (fun z => Rltb z y) l)%nat).
  { unfold count_if. clear Ix. induction l as [|z l IH]; [cbn; lia|]. cbn [filter].
    assert (K : ((if Rltb z x then 1 else 0) + (if Reqbb z x then 1 else 0) <= (if Rltb z y then 1 else 0))%nat).
    { unfold Rltb, Reqbb. destruct (Rlt_dec z x), (Req_EM_T z x), (Rlt_dec z y); lia || lra. }
    destruct (Rltb z x), (Reqbb z x), (Rltb z y); cbn [length]; lia. }
  assert (P : (1 <= count_if (fun z => Reqbb z x) l)%nat).
  { unfold count_if. assert (H : In x (filter (fun z => Reqbb z x) l)) by (apply filter_In; split; [exact Ix|apply Reqbb_true; reflexivity]).
    destruct (filter _ l); [contradiction|cbn; lia]. }
  apply le_INR in C. rewrite plus_INR in C. apply le_INR in P. change (INR 1) with 1 in P. assert (Q := pos_INR (count_if (fun z => Reqbb z y) l)). lra.
Qed.
Lemma rank_spread : forall l, has_spread (map (rankR l) l) <-> has_spread l.
Proof.
  intro l. split.
  - intros (u & v & Hu & Hv & D). apply in_map_iff in Hu, Hv. destruct Hu as (u' & <- & Iu), Hv as (v' & <- & Iv). exists u', v'. repeat split; auto. intros ->. apply D. reflexivity.
  - intros (u & v & Hu & Hv & D). exists (rankR l u), (rankR l v). repeat split; try (apply in_map_iff; eexists; split; [reflexivity|assumption]).
    destruct (Rtotal_order u v) as [H|[H|H]]; [|contradiction|]; apply rank_lt with (l := l) in H; try assumption; lra.
Qed.
Lemma c75_srcc : forall lstsq g p, (2 <= length g)%nat -> length p = length g -> has_spread g -> has_spread p ->
  exists r, perf_score lstsq SRCC false (plain g) (map Fin p) = Ok (Fin r) /\ -1 <= r <= 1.
Proof.
  intros lstsq g p L E Sg Sp. apply rank_spread in Sg, Sp. exists (pearson (map (rankR g) g) (map (rankR p) p)). split; [|apply pearson_bounds; assumption].
  rewrite score_plain by exact E. cbn [perf_evaluate]. unfold sp_spearmanr. rewrite map_length. destruct (Nat.ltb_spec (length g) 2); [lia|].
  rewrite !rankdata_Fin, pearsonr_value by (rewrite ?map_length; assumption).
  destruct (spread_dec (map (rankR g) g)); [|contradiction]. destruct (spread_dec (map (rankR p) p)); [reflexivity|contradiction].
Qed.

(** Kendall. *)
Lemma nsign_Fin : forall x y, nsign (Fin x) (Fin y) = Fin (sgn x y).
Proof.
  intros x y. unfold nsign, sgn. change (nltb (Fin x) (Fin y)) with (Rltb x y). change (nltb (Fin y) (Fin x)) with (Rltb y x). unfold Rltb.
  destruct (Rlt_dec x y); [reflexivity|]. destruct (Rlt_dec y x); [|reflexivity]. unfold none_. reflexivity.
Qed.
Lemma pairs_map : forall (A B : Type) (f : A -> B) l, pairs (map f l) = map (fun q => (f (fst q), f (snd q))) (pairs l).
Proof.
  induction l as [|x l IH]; [reflexivity|]. cbn [pairs map]. rewrite IH, map_app, !map_map. reflexivity.
Qed.
Definition signs (l : list (R * R)) : list (R * R) := map (fun q => (sgn (fst (fst q)) (fst (snd q)), sgn (snd (fst q)) (snd (snd q)))) (pairs l).
Lemma kendall_Fin : forall g p, sp_kendalltau (map Fin g) (map Fin p) =
  ef_div (ef_div (Fin (S12 (signs (combine g p)))) (Fin (sqrt (S11 (signs (combine g p)))))) (Fin (sqrt (S22 (signs (combine g p))))).
Proof.
  intros g p. unfold sp_kendalltau. rewrite combine_map2, pairs_map, !map_map. cbn [fst snd].
  set (l := signs (combine g p)).
  assert (A : forall F : R * R -> R, np_sum (map (fun q => Fin (F (sgn (fst (fst q)) (fst (snd q)), sgn (snd (fst q)) (snd (snd q))))) (pairs (combine g p))) = Fin (Rsum (map F l))).
  { intro F. unfold l, signs. rewrite map_map. rewrite <- (map_map (fun q => F (sgn (fst (fst q)) (fst (snd q)), sgn (snd (fst q)) (snd (snd q)))) Fin). apply np_sum_Fin. }
  rewrite (map_ext (fun q => nmul (nsign (Fin (fst (fst q))) (Fin (fst (snd q)))) (nsign (Fin (snd (fst q))) (Fin (snd (snd q))))) (fun q => Fin ((fun z => fst z * snd z) (sgn (fst (fst q)) (fst (snd q)), sgn (snd (fst q)) (snd (snd q)))))) by (intro q; rewrite !nsign_Fin; reflexivity).
  rewrite (A (fun z => fst z * snd z)).
  rewrite (map_ext (fun q => nsq (nsign (Fin (fst (fst q))) (Fin (fst (snd q))))) (fun q => Fin ((fun z => fst z * fst z) (sgn (fst (fst q)) (fst (snd q)), sgn (snd (fst q)) (snd (snd q)))))) by (intro q; rewrite !nsign_Fin; reflexivity).
  rewrite (A (fun z => fst z * fst z)).
  rewrite (map_ext (fun q => nsq (nsign (Fin (snd (fst q))) (Fin (snd (snd q))))) (fun q => Fin ((fun z => snd z * snd z) (sgn (fst (fst q)) (fst (snd q)), sgn (snd (fst q)) (snd (snd q)))))) by (intro q; rewrite !nsign_Fin; reflexivity).
  rewrite (A (fun z => snd z * snd z)).
  fold (S12 l) (S11 l) (S22 l). efc. rewrite !ef_sqrt_Fin by (apply S11_nonneg || apply S22_nonneg). reflexivity.
Qed.
Lemma in_pairs_l : forall (A : Type) (l : list A) x y, In x l -> In y l -> x = y \/ In (x, y) (pairs l) \/ In (y, x) (pairs l).
Proof.
  induction l as [|z l IH]; intros x y Hx Hy; [contradiction|]. cbn [pairs]. destruct Hx as [->|Hx], Hy as [->|Hy].
  - left. reflexivity.
  - right. left. apply in_or_app. left. apply in_map_iff. exists y. auto.
  - right. right. apply in_or_app. left. apply in_map_iff. exists x. auto.
  - destruct (IH x y Hx Hy) as [H|[H|H]]; [left; exact H|right; left|right; right]; apply in_or_app; right; exact H.
Qed.
Lemma in_combine_ex : forall (A B : Type) (l : list A) (k : list B) x, length k = length l -> In x l -> exists y, In (x, y) (combine l k).
Proof.
  induction l as [|z l IH]; intros [|w k] x L H; cbn in *; try contradiction; try discriminate. destruct H as [->|H]; [exists w; left; reflexivity|].
  destruct (IH k x) as [y Hy]; [lia|exact H|]. exists y. right. exact Hy.
Qed.
Lemma sgn_sq : forall x y, x <> y -> sgn x y * sgn x y = 1.
Proof. intros x y D. unfold sgn. destruct (Rlt_dec x y); [ring|]. destruct (Rlt_dec y x); [ring|lra]. Qed.
Lemma pos_of_member : forall l v, (forall x, In x l -> 0 <= x) -> In v l -> 0 < v -> 0 < Rsum l.
Proof.
  induction l as [|x l IH]; intros v H I P; [contradiction|]. rewrite Rsum_cons. assert (Q := Rsum_nonneg l (fun z Hz => H z (or_intror Hz))).
  destruct I as [->|I]; [lra|]. assert (0 < Rsum l) by (apply (IH v); auto; intros z Hz; apply H; right; exact Hz). generalize (H x (or_introl eq_refl)). lra.
Qed.
Lemma S11_pos : forall g p, length p = length g -> has_spread g -> 0 < S11 (signs (combine g p)).
Proof.
  intros g p L (u & v & Hu & Hv & D). destruct (in_combine_ex _ _ g p u L Hu) as [u' Iu]. destruct (in_combine_ex _ _ g p v L Hv) as [v' Iv].
  unfold S11. apply pos_of_member with 1; [intros x H; apply in_map_iff in H; destruct H as (q & <- & _); apply Rle_0_sqr| |lra].
  unfold signs. rewrite map_map. cbn [fst]. apply in_map_iff.
  destruct (in_pairs_l _ _ _ _ Iu Iv) as [E|[H|H]]; [congruence| |]; eexists; (split; [|exact H]); cbn [fst snd]; apply sgn_sq; congruence.
Qed.
Lemma signs_swap : forall g p, S22 (signs (combine g p)) = S11 (signs (combine p g)).
Proof.
  intros g p. unfold S22, S11, signs. rewrite (combine_swap _ _ g p), pairs_map, !map_map. reflexivity.
Qed.
Lemma c75_kendall : forall lstsq g p, length p = length g -> has_spread g -> has_spread p ->
  exists r, perf_score lstsq KENDALL false (plain g) (map Fin p) = Ok (Fin r) /\ -1 <= r <= 1.
Proof.
  intros lstsq g p E Sg Sp. rewrite score_plain by exact E. cbn [perf_evaluate]. rewrite kendall_Fin.
  set (l := signs (combine g p)). assert (P1 : 0 < sqrt (S11 l)) by (apply sqrt_lt_R0, S11_pos; assumption).
  assert (P2 : 0 < sqrt (S22 l)) by (apply sqrt_lt_R0; unfold l; rewrite signs_swap; apply S11_pos; [symmetry; exact E|exact Sp]).
  rewrite !ef_div_Fin by lra. eexists. split; [reflexivity|]. assert (C := cauchy_sqrt l). set (s := sqrt (S11 l)) in *. set (t := sqrt (S22 l)) in *. set (c := S12 l) in *.
  assert (D : 0 < s * t) by (apply Rmult_lt_0_compat; assumption).
  assert (F1 : - (s * t) <= c <= s * t) by (unfold Rabs in C; destruct (Rcase_abs c); lra).
  replace (c / s / t) with (c / (s * t)) by (field; lra).
  split; (apply Rmult_le_reg_r with (s * t); [exact D|]); unfold Rdiv; rewrite Rmult_assoc, Rinv_l by lra; lra.
Qed.
Lemma sgn_mono : forall l f x y, increasing_on l f -> In x l -> In y l -> sgn (f x) (f y) = sgn x y.
Proof.
  intros l f x y M Ix Iy. destruct (mono_cmp l f x y M Ix Iy) as [C1 _]. destruct (mono_cmp l f y x M Iy Ix) as [C2 _].
  unfold sgn. destruct (Rlt_dec (f x) (f y)), (Rlt_dec x y); try tauto. destruct (Rlt_dec (f y) (f x)), (Rlt_dec y x); tauto.
Qed.
Lemma pairs_in : forall (A : Type) (l : list A) q, In q (pairs l) -> In (fst q) l /\ In (snd q) l.
Proof.
  induction l as [|x l IH]; intros q H; [contradiction|]. cbn [pairs] in H. apply in_app_or in H. destruct H as [H|H].
  - apply in_map_iff in H. destruct H as (y & <- & Iy). cbn. auto.
  - destruct (IH q H). cbn. auto.
Qed.
Lemma c75_kendall_monotone : forall lstsq f h g p, length p = length g -> increasing_on g f -> increasing_on p h ->
  perf_score lstsq KENDALL false (plain (map f g)) (map Fin (map h p)) = perf_score lstsq KENDALL false (plain g) (map Fin p).
Proof.
  intros lstsq f h g p E M1 M2. rewrite !score_plain by (rewrite ?map_length; exact E). cbn [perf_evaluate]. rewrite !kendall_Fin.
  assert (Q : signs (combine (map f g) (map h p)) = signs (combine g p)).
  { rewrite combine_map2. unfold signs. rewrite pairs_map, map_map. cbn [fst snd]. apply map_ext_in. intros [[a b] [c d]] I. apply pairs_in in I. cbn [fst snd] in *.
    destruct I as [I1 I2]. f_equal; [apply (sgn_mono g)|apply (sgn_mono p)]; try assumption; first [eapply in_combine_l; eassumption|eapply in_combine_r; eassumption]. }
  rewrite Q. reflexivity.
Qed.
