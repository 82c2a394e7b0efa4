(** Rank metrics at extreme agreement, density of a sum of uniforms, coverage
    percentage, logistic mapping. *)
From Coq Require Import List ZArith Bool Arith Reals Lia Lra Psatz.
From Verif Require Import PyBase Num ExtReal NumPy ExtRealProofs SpecMos Preproc Reject2Proofs StepsProofs Mle Perf SpecPerf PerfProofs.
Import ListNotations.
Local Open Scope R_scope.

(** ** Agreement and opposition of ranks *)
Lemma covsum_self : forall x, covsum x x = sumsq (Rmean x) x.
Proof.
  intro x. unfold covsum, sumsq. assert (E : combine x x = map (fun v => (v, v)) x) by (clear; induction x; cbn; congruence).
  rewrite E, map_map. apply Rsum_map_ext. intros v _. cbn [fst snd]. ring.
Qed.
Lemma pearson_self : forall x, has_spread x -> pearson x x = 1.
Proof.
  intros x S. apply spread_pos in S. unfold pearson. rewrite covsum_self. rewrite sqrt_sqrt by lra. field. lra.
Qed.
Lemma pearson_reflect : forall c x, has_spread x -> pearson x (map (fun v => c - v) x) = -1.
Proof.
  intros c x S. assert (N : x <> []) by (destruct S as (u & _ & H & _); destruct x; [contradiction|discriminate]).
  rewrite (map_ext (fun v => c - v) (fun v => (-1) * v + c)) by (intro; ring). rewrite pearson_sym. unfold pearson.
  rewrite covsum_affine, sumsq_affine, covsum_self by exact N. apply spread_pos in S.
  replace (-1 * -1 * sumsq (Rmean x) x) with (sumsq (Rmean x) x) by ring. rewrite sqrt_sqrt by lra. field. lra.
Qed.
Lemma rank_split : forall l x, (count_if (fun y => Rltb y x) l + count_if (fun y => Reqbb y x) l + count_if (fun y => Rltb x y) l = length l)%nat.
Proof.
  intros l x. unfold count_if. induction l as [|z l IH]; [reflexivity|]. cbn [filter].
  assert (K : ((if Rltb z x then 1 else 0) + (if Reqbb z x then 1 else 0) + (if Rltb x z then 1 else 0) = 1)%nat).
  { unfold Rltb, Reqbb. destruct (Rlt_dec z x), (Req_EM_T z x), (Rlt_dec x z); lia || lra. }
  destruct (Rltb z x), (Reqbb z x), (Rltb x z); cbn [length] in *; lia.
Qed.
Lemma mono_cmp_down : forall l f x y, decreasing_on l f -> In x l -> In y l -> (f x < f y <-> y < x) /\ (f x = f y <-> x = y).
Proof.
  intros l f x y M Ix Iy. destruct (Rtotal_order x y) as [H|[->|H]].
  - assert (Q := M x y Ix Iy H). repeat split; intros; try lra.
  - repeat split; intros; lra.
  - assert (Q := M y x Iy Ix H). repeat split; intros; lra.
Qed.
Lemma rank_down : forall l f, decreasing_on l f -> map (rankR (map f l)) (map f l) = map (fun v => INR (length l) + 1 - v) (map (rankR l) l).
Proof.
  intros l f M. rewrite !map_map. apply map_ext_in. intros x Ix. unfold rankR. rewrite !count_map.
  assert (E1 : count_if (fun y => Rltb (f y) (f x)) l = count_if (fun y => Rltb x y) l).
  { apply count_ext. intros y Iy. destruct (mono_cmp_down l f y x M Iy Ix) as [C _]. unfold Rltb. destruct (Rlt_dec (f y) (f x)), (Rlt_dec x y); tauto. }
  assert (E2 : count_if (fun y => Reqbb (f y) (f x)) l = count_if (fun y => Reqbb y x) l).
  { apply count_ext. intros y Iy. destruct (mono_cmp_down l f y x M Iy Ix) as [_ C]. unfold Reqbb. destruct (Req_EM_T (f y) (f x)), (Req_EM_T y x); tauto. }
  rewrite E1, E2. assert (S := rank_split l x). apply (f_equal INR) in S. rewrite !plus_INR in S. lra.
Qed.
Lemma srcc_value : forall lstsq g p, (2 <= length g)%nat -> length p = length g ->
  perf_score lstsq SRCC false (plain g) (map Fin p) = Ok (if spread_dec g then if spread_dec p then Fin (pearson (map (rankR g) g) (map (rankR p) p)) else NaN else NaN).
Proof.
  intros lstsq g p L E. rewrite score_plain by exact E. cbn [perf_evaluate]. unfold sp_spearmanr. rewrite map_length. destruct (Nat.ltb_spec (length g) 2); [lia|].
  rewrite !rankdata_Fin, pearsonr_value by (rewrite ?map_length; assumption). f_equal.
  destruct (spread_dec (map (rankR g) g)) as [H1|H1], (spread_dec g) as [H2|H2]; try (rewrite rank_spread in H1; contradiction); [|reflexivity].
  destruct (spread_dec (map (rankR p) p)) as [H3|H3], (spread_dec p) as [H4|H4]; try (rewrite rank_spread in H3; contradiction); reflexivity.
Qed.
Lemma spread_length : forall l, has_spread l -> (2 <= length l)%nat.
Proof. intros l (u & v & Hu & Hv & D). destruct l as [|a [|b l]]; cbn in *; [contradiction|destruct Hu as [<-|[]], Hv as [<-|[]]; contradiction|lia]. Qed.
Lemma c63_pcc_exact : forall lstsq g p, length p = length g -> has_spread g -> has_spread p ->
  perf_score lstsq PCC false (plain g) (map Fin p) = Ok (Fin (pearson g p)) /\ -1 <= pearson g p <= 1.
Proof.
  intros lstsq g p E Sg Sp. split; [|apply pearson_bounds; assumption].
  rewrite score_plain by exact E. cbn [perf_evaluate]. rewrite pearsonr_value by (try apply spread_length; assumption). destruct (spread_dec g); [|contradiction]. destruct (spread_dec p); [reflexivity|contradiction].
Qed.
Lemma c75_srcc_exact : forall lstsq g p, length p = length g -> has_spread g -> has_spread p ->
  perf_score lstsq SRCC false (plain g) (map Fin p) = Ok (Fin (pearson (map (avg_rank g) g) (map (avg_rank p) p))) /\
  -1 <= pearson (map (avg_rank g) g) (map (avg_rank p) p) <= 1.
Proof.
  intros lstsq g p E Sg Sp. assert (A : forall l x, avg_rank l x = rankR l x).
  { intros l x. unfold avg_rank, rankR, count_if. do 3 f_equal; try (do 2 f_equal; apply filter_ext; intro y; unfold Rltb, Reqbb; destruct (Rlt_dec y x), (Req_EM_T y x); reflexivity). }
  rewrite !(map_ext _ _ (A _)).
  split; [|apply pearson_bounds; apply rank_spread; assumption].
  rewrite srcc_value by (try apply spread_length; assumption). destruct (spread_dec g); [|contradiction]. destruct (spread_dec p); [reflexivity|contradiction].
Qed.
Lemma signs_agree : forall (f : R -> R) g, combine g (map f g) = map (fun v => (v, f v)) g.
Proof. induction g as [|x g IH]; cbn; [reflexivity|]. rewrite IH. reflexivity. Qed.
Lemma combine_self : forall g : list R, combine g g = map (fun v => (v, v)) g.
Proof. induction g as [|x g IH]; cbn; [reflexivity|]. rewrite IH. reflexivity. Qed.
Lemma c75_agree : forall lstsq m f g, has_spread g -> increasing_on g f -> m = SRCC \/ m = KENDALL ->
  perf_score lstsq m false (plain g) (map Fin (map f g)) = Ok (Fin 1).
Proof.
  intros lstsq m f g S M [->| ->].
  - assert (L := spread_length g S). rewrite <- (map_id g) at 1. rewrite (c75_srcc_monotone lstsq (fun x => x) f g g); [|reflexivity|intros x y _ _ H; exact H|exact M].
    rewrite srcc_value by auto. destruct (spread_dec g); [|contradiction]. rewrite pearson_self; [reflexivity|]. apply rank_spread. exact S.
  - rewrite <- (map_id g) at 1. rewrite (c75_kendall_monotone lstsq (fun x => x) f g g); [|reflexivity|intros x y _ _ H; exact H|exact M].
    rewrite score_plain by reflexivity. cbn [perf_evaluate]. rewrite kendall_Fin.
    assert (P := S11_pos g g eq_refl S).
    assert (E1 : S22 (signs (combine g g)) = S11 (signs (combine g g))) by apply signs_swap.
    assert (E2 : S12 (signs (combine g g)) = S11 (signs (combine g g))).
    { unfold S12, S11, signs. rewrite combine_self, pairs_map, !map_map. reflexivity. }
    rewrite E1, E2. set (a := S11 _) in *. assert (Q := sqrt_lt_R0 a P). rewrite !ef_div_Fin by lra. do 2 f_equal.
    rewrite <- (sqrt_sqrt a) at 1 by lra. field. lra.
Qed.
Lemma sgn_down : forall l f x y, decreasing_on l f -> In x l -> In y l -> sgn (f x) (f y) = - sgn x y.
Proof.
  intros l f x y M Ix Iy. destruct (mono_cmp_down l f x y M Ix Iy) as [C1 C2]. destruct (mono_cmp_down l f y x M Iy Ix) as [C3 _].
  unfold sgn. destruct (Rlt_dec (f x) (f y)), (Rlt_dec x y), (Rlt_dec (f y) (f x)), (Rlt_dec y x); try tauto; try lra.
Qed.
Lemma c75_oppose : forall lstsq m f g, has_spread g -> decreasing_on g f -> m = SRCC \/ m = KENDALL ->
  perf_score lstsq m false (plain g) (map Fin (map f g)) = Ok (Fin (-1)).
Proof.
  intros lstsq m f g S M [->| ->].
  - assert (L := spread_length g S). rewrite srcc_value by (rewrite ?map_length; auto).
    assert (S' : has_spread (map f g)).
    { destruct S as (u & v & Hu & Hv & D). exists (f u), (f v). repeat split; try (apply in_map; assumption). intro E. apply D. apply (mono_cmp_down g f u v M Hu Hv). exact E. }
    destruct (spread_dec g); [|contradiction]. destruct (spread_dec (map f g)); [|contradiction].
    rewrite rank_down by exact M. rewrite pearson_reflect; [reflexivity|]. apply rank_spread. exact S.
  - rewrite score_plain by (rewrite map_length; reflexivity). cbn [perf_evaluate]. rewrite kendall_Fin.
    assert (Q : signs (combine g (map f g)) = map (fun q => (fst q, - snd q)) (signs (combine g g))).
    { rewrite signs_agree, combine_self. unfold signs. rewrite !pairs_map, !map_map. cbn [fst snd]. apply map_ext_in. intros [x y] I. apply pairs_in in I. cbn [fst snd] in *. f_equal. apply (sgn_down g); tauto. }
    assert (P := S11_pos g g eq_refl S).
    assert (E2 : S12 (signs (combine g g)) = S11 (signs (combine g g))).
    { unfold S12, S11, signs. rewrite combine_self, pairs_map, !map_map. reflexivity. }
    assert (E1 : S22 (signs (combine g g)) = S11 (signs (combine g g))) by apply signs_swap.
    rewrite Q. set (l := signs (combine g g)) in *.
    assert (A1 : S12 (map (fun q => (fst q, - snd q)) l) = - S11 l).
    { rewrite <- E2. unfold S12. rewrite map_map. cbn [fst snd]. rewrite (map_ext _ (fun q => (-1) * (fst q * snd q))) by (intro; ring). rewrite Rsum_map_mul. ring. }
    assert (A2 : S11 (map (fun q => (fst q, - snd q)) l) = S11 l) by (unfold S11; rewrite map_map; reflexivity).
    assert (A3 : S22 (map (fun q => (fst q, - snd q)) l) = S11 l).
    { rewrite <- E1. unfold S22. rewrite map_map. apply Rsum_map_ext. intros q _. cbn [snd]. ring. }
    rewrite A1, A2, A3. set (a := S11 l) in *. assert (R0 := sqrt_lt_R0 a P). rewrite !ef_div_Fin by lra. do 2 f_equal.
    rewrite <- (sqrt_sqrt a) at 1 by lra. field. lra.
Qed.

(** ** Density of the sum of two uniform variables *)
Definition flank (s1 s2 z : R) : R :=
  if Rlt_dec z (- (s1 + s2) / 2) then 0 else if Rlt_dec z (- Rabs (s1 - s2) / 2) then 1
  else if Rlt_dec z (Rabs (s1 - s2) / 2) then 0 else if Rlt_dec z ((s1 + s2) / 2) then -1 else 0.
Lemma max_of_abs : forall s1 s2, Rabs (s1 - s2) + (s1 + s2) = 2 * Rmax s1 s2.
Proof. intros. unfold Rabs, Rmax. destruct (Rcase_abs (s1 - s2)), (Rle_dec s1 s2); lra. Qed.
Lemma conv_value : forall x l1 s1 l2 s2, 0 < s1 -> 0 < s2 ->
  convolution_of_two_uniforms (Fin x) (Fin l1) (Fin s1) (Fin l2) (Fin s2) =
  Fin (overlap s1 s2 (x - l1 - l2) + flank s1 s2 (x - l1 - l2) * (l1 + l2) / (s1 * s2)).
Proof.
  intros x l1 s1 l2 s2 P1 P2. unfold convolution_of_two_uniforms, nzero. efc. unfold ef_sub. cbn [ef_neg ef_add ef_abs].
  assert (H2 : forall a, ef_div (Fin a) (Fin 2) = Fin (a / 2)) by (intro; apply ef_div_Fin; lra).
  rewrite !H2. cbn [ef_neg ef_add]. rewrite ?H2. clear H2. set (z := x + - l1 + - l2). replace (x - l1 - l2) with z by (unfold z; ring).
  change (s1 + - s2) with (s1 - s2). set (d := Rabs (s1 - s2)).
  assert (D : d + (s1 + s2) = 2 * Rmax s1 s2) by apply max_of_abs.
  assert (Dp : 0 <= d) by apply Rabs_pos. rewrite ef_div_Fin by lra. cbn [ef_leb ef_ltb ef_add ef_neg].
  unfold flank. fold d. unfold Rleb, Rltb.
  assert (Ds : d < s1 + s2) by (unfold d, Rabs; destruct (Rcase_abs (s1 - s2)); lra).
  assert (SQ : d * d = (s1 - s2) * (s1 - s2)) by (unfold d, Rabs; destruct (Rcase_abs (s1 - s2)); ring).
  assert (PP : 0 < s1 * s2) by (apply Rmult_lt_0_compat; assumption).
  assert (OV : overlap s1 s2 z = (if Rlt_dec z (- (s1 + s2) / 2) then 0 else if Rlt_dec z (- d / 2) then (z + (s1 + s2) / 2) / (s1 * s2)
     else if Rlt_dec z (d / 2) then 2 / (d + (s1 + s2)) else if Rlt_dec z ((s1 + s2) / 2) then ((s1 + s2) / 2 - z) / (s1 * s2) else 0)).
  { unfold overlap. destruct (Rlt_dec z (- (s1 + s2) / 2)) as [H|H].
    { rewrite Rmax_left; [unfold Rdiv; ring|]. unfold Rmin, Rmax. destruct (Rle_dec _ _), (Rle_dec _ _); lra. }
    destruct (Rlt_dec z (- d / 2)) as [H1|H1].
    { f_equal. assert (Q : z + s2 / 2 <= s1 / 2 /\ z - s2 / 2 <= - s1 / 2) by (unfold d, Rabs in H1; destruct (Rcase_abs (s1 - s2)); lra).
      rewrite (Rmin_right (s1 / 2)), (Rmax_left (- s1 / 2)) by lra. rewrite Rmax_right by lra. lra. }
    destruct (Rlt_dec z (d / 2)) as [H2|H2].
    { apply Rmult_eq_reg_r with (s1 * s2 * (d + (s1 + s2))); [|apply Rmult_integral_contrapositive_currified; lra].
      replace (2 / (d + (s1 + s2)) * (s1 * s2 * (d + (s1 + s2)))) with (2 * (s1 * s2)) by (field; lra).
      unfold Rdiv at 1. rewrite Rmult_assoc. replace (/ (s1 * s2) * (s1 * s2 * (d + (s1 + s2)))) with (d + (s1 + s2)) by (field; lra).
      unfold d, Rabs in *. destruct (Rcase_abs (s1 - s2)).
      - rewrite (Rmin_left (s1 / 2)), (Rmax_left (- s1 / 2)) by lra. rewrite Rmax_right by lra. lra.
      - rewrite (Rmin_right (s1 / 2)), (Rmax_right (- s1 / 2)) by lra. rewrite Rmax_right by lra. lra. }
    destruct (Rlt_dec z ((s1 + s2) / 2)) as [H3|H3].
    { f_equal. assert (Q : s1 / 2 <= z + s2 / 2 /\ - s1 / 2 <= z - s2 / 2) by (unfold d, Rabs in H2; destruct (Rcase_abs (s1 - s2)); lra).
      rewrite (Rmin_left (s1 / 2)), (Rmax_right (- s1 / 2)) by lra. rewrite Rmax_right by lra. lra. }
    rewrite Rmax_left; [unfold Rdiv; ring|]. unfold Rmin, Rmax. destruct (Rle_dec _ _), (Rle_dec _ _); lra. }
  rewrite OV.
  assert (SL : 2 / (d + (s1 + s2)) / (((s1 + s2) / 2) - d / 2) = 1 / (s1 * s2)).
  { replace (s1 * s2) with ((s1 + s2 - d) * (s1 + s2 + d) / 4) by nra. field. lra. }
  destruct (Rle_dec (- (s1 + s2) / 2) z) as [H|H]; destruct (Rlt_dec z (- (s1 + s2) / 2)) as [H'|H']; try lra; cbn [andb].
  - destruct (Rlt_dec z (- d / 2)) as [H1|H1].
    + cbn [ef_mul]. rewrite ef_div_Fin by lra. cbn [ef_mul ef_add]. f_equal.
      replace ((2 / (d + (s1 + s2)) + - 0) / (- d / 2 + - (- (s1 + s2) / 2))) with (1 / (s1 * s2)) by (rewrite <- SL; f_equal; lra).
      unfold z. field. lra.
    + destruct (Rle_dec (- d / 2) z) as [H2|H2]; [|lra]. cbn [andb]. destruct (Rlt_dec z (d / 2)) as [H3|H3].
      * f_equal. field. lra.
      * destruct (Rle_dec (d / 2) z) as [H4|H4]; [|lra]. cbn [andb]. destruct (Rlt_dec z ((s1 + s2) / 2)) as [H5|H5].
        -- rewrite ef_div_Fin by lra. cbn [ef_mul ef_add]. f_equal.
           replace ((2 / (d + (s1 + s2)) + - 0) / (d / 2 + - ((s1 + s2) / 2))) with (- (1 / (s1 * s2))) by (rewrite <- SL; field; lra).
           unfold z. field. lra.
        -- f_equal. field. lra.
  - destruct (Rle_dec (- d / 2) z); [lra|]. cbn [andb]. destruct (Rle_dec (d / 2) z); [lra|]. cbn [andb]. f_equal. field. lra.
Qed.
Lemma overlap_nonneg : forall s1 s2 z, 0 < s1 -> 0 < s2 -> 0 <= overlap s1 s2 z.
Proof. intros. unfold overlap. apply Rmult_le_pos; [apply Rmax_l|]. apply Rlt_le, Rinv_0_lt_compat. apply Rmult_lt_0_compat; assumption. Qed.
Lemma overlap_out : forall s1 s2 z, 0 < s1 -> 0 < s2 -> (s1 + s2) / 2 <= Rabs z -> overlap s1 s2 z = 0.
Proof.
  intros s1 s2 z P1 P2 H. unfold overlap. rewrite Rmax_left; [unfold Rdiv; ring|]. unfold Rabs in H. destruct (Rcase_abs z); unfold Rmin, Rmax; destruct (Rle_dec _ _), (Rle_dec _ _); lra.
Qed.
Lemma c59_support : forall x l1 s1 l2 s2, 0 < s1 -> 0 < s2 -> (s1 + s2) / 2 < Rabs (x - l1 - l2) ->
  convolution_of_two_uniforms (Fin x) (Fin l1) (Fin s1) (Fin l2) (Fin s2) = Fin 0.
Proof.
  intros x l1 s1 l2 s2 P1 P2 H. rewrite conv_value, overlap_out by lra.
  assert (F : flank s1 s2 (x - l1 - l2) = 0).
  { unfold flank. assert (D : 0 <= Rabs (s1 - s2) < s1 + s2) by (split; [apply Rabs_pos|unfold Rabs; destruct (Rcase_abs (s1 - s2)); lra]).
    unfold Rabs in H at 1. destruct (Rcase_abs (x - l1 - l2)); repeat destruct (Rlt_dec _ _); lra. }
  rewrite F. f_equal. unfold Rdiv. ring.
Qed.
Lemma c59_centred : forall x l1 s1 l2 s2, 0 < s1 -> 0 < s2 -> l1 + l2 = 0 ->
  convolution_of_two_uniforms (Fin x) (Fin l1) (Fin s1) (Fin l2) (Fin s2) = Fin (overlap s1 s2 (x - l1 - l2)) /\ 0 <= overlap s1 s2 (x - l1 - l2).
Proof. intros. split; [|apply overlap_nonneg; assumption]. rewrite conv_value by assumption. rewrite H1. f_equal. unfold Rdiv. ring. Qed.
Lemma flank_plateau : forall s1 s2 z, 0 < s1 -> 0 < s2 -> Rabs z < Rabs (s1 - s2) / 2 -> flank s1 s2 z = 0 /\ overlap s1 s2 z = / Rmax s1 s2.
Proof.
  intros s1 s2 z P1 P2 H.
  assert (H' : - Rabs (s1 - s2) / 2 < z < Rabs (s1 - s2) / 2) by (unfold Rabs in H at 1; destruct (Rcase_abs z); lra).
  assert (D : Rabs (s1 - s2) < s1 + s2) by (unfold Rabs; destruct (Rcase_abs (s1 - s2)); lra). split.
  - unfold flank. repeat destruct (Rlt_dec _ _); lra.
  - unfold overlap. unfold Rabs in H'. destruct (Rcase_abs (s1 - s2)).
    + rewrite (Rmin_left (s1 / 2)), (Rmax_left (- s1 / 2)), (Rmax_right s1) by lra. rewrite Rmax_right by lra. field. lra.
    + rewrite (Rmin_right (s1 / 2)), (Rmax_right (- s1 / 2)), (Rmax_left s1) by lra. rewrite Rmax_right by lra. field. lra.
Qed.
Lemma c59_plateau : forall x l1 s1 l2 s2, 0 < s1 -> 0 < s2 -> Rabs (x - l1 - l2) < Rabs (s1 - s2) / 2 ->
  convolution_of_two_uniforms (Fin x) (Fin l1) (Fin s1) (Fin l2) (Fin s2) = Fin (/ Rmax s1 s2).
Proof. intros x l1 s1 l2 s2 P1 P2 H. rewrite conv_value by assumption. destruct (flank_plateau s1 s2 _ P1 P2 H) as [-> ->]. f_equal. unfold Rdiv. ring. Qed.
Lemma c59_error : forall x l1 s1 l2 s2, 0 < s1 -> 0 < s2 -> l1 + l2 <> 0 -> Rabs (s1 - s2) / 2 < Rabs (x - l1 - l2) < (s1 + s2) / 2 ->
  exists v, convolution_of_two_uniforms (Fin x) (Fin l1) (Fin s1) (Fin l2) (Fin s2) = Fin v /\
    v <> overlap s1 s2 (x - l1 - l2) /\ Rabs (v - overlap s1 s2 (x - l1 - l2)) = Rabs (l1 + l2) / (s1 * s2).
Proof.
  intros x l1 s1 l2 s2 P1 P2 N H. eexists. split; [apply conv_value; assumption|]. set (z := x - l1 - l2) in *.
  assert (PP : 0 < / (s1 * s2)) by (apply Rinv_0_lt_compat, Rmult_lt_0_compat; assumption).
  assert (F : flank s1 s2 z = 1 \/ flank s1 s2 z = -1).
  { unfold flank. assert (D : 0 <= Rabs (s1 - s2)) by apply Rabs_pos. set (d := Rabs (s1 - s2)) in *. unfold Rabs in H. destruct (Rcase_abs z); repeat destruct (Rlt_dec _ _); lra. }
  assert (K : Rabs (flank s1 s2 z * (l1 + l2) / (s1 * s2)) = Rabs (l1 + l2) / (s1 * s2)).
  { unfold Rdiv. rewrite !Rabs_mult, (Rabs_pos_eq (/ _)) by lra. destruct F as [-> | ->]; [rewrite Rabs_R1|rewrite Rabs_left by lra]; ring. }
  replace (overlap s1 s2 z + flank s1 s2 z * (l1 + l2) / (s1 * s2) - overlap s1 s2 z) with (flank s1 s2 z * (l1 + l2) / (s1 * s2)) by ring.
  split; [|exact K]. intro E. assert (Z : flank s1 s2 z * (l1 + l2) / (s1 * s2) = 0) by lra. rewrite Z, Rabs_R0 in K.
  assert (0 < Rabs (l1 + l2)) by (apply Rabs_pos_lt; exact N). assert (0 < Rabs (l1 + l2) / (s1 * s2)) by (apply Rmult_lt_0_compat; assumption). lra.
Qed.
Lemma c59_negative : convolution_of_two_uniforms (Fin (-12/5)) (Fin (-1)) (Fin 1) (Fin 0) (Fin 2) = Fin (-9/20).
Proof.
  rewrite conv_value by lra. f_equal. unfold overlap, flank. rewrite Rabs_left by lra.
  rewrite (Rmin_right (1 / 2)), (Rmax_left (-1 / 2)) by lra. rewrite Rmax_right by lra. repeat destruct (Rlt_dec _ _); lra.
Qed.
