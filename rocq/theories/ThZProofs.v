(** z-scored output of the Thurstone model. *)
From Coq Require Import List ZArith Bool Arith Reals Lia Lra Permutation.
From Verif Require Import PyBase Num ExtReal ExtRealProofs NumPy ArrayProofs SpecMos PairedComp SpecBt BtProofs Bt2Proofs Bt3Proofs Bt5Proofs BtWitness SpecThZ.
Import ListNotations.
Local Open Scope list_scope.
Local Open Scope R_scope.

Lemma total_const : forall m c, total m (fun _ => c) = INR m * c.
Proof.
  intros m c. unfold total. rewrite <- (seq_length m 0) at 2. induction (seq 0 m) as [|y l IH]; [unfold Rsum; cbn; ring|].
  cbn [map length]. rewrite S_INR. change (Rsum (c :: map (fun _ : nat => c) l)) with (c + Rsum (map (fun _ : nat => c) l)). rewrite IH. ring.
Qed.
Lemma mean_vec : forall m x, (0 < m)%nat -> np_mean (vec m x) = Fin (total m x / INR m).
Proof.
  intros m x Hm. assert (Rm : 0 < INR m) by (apply lt_0_INR, Hm). unfold np_mean, vec. rewrite np_sum_total, map_length, seq_length, nofnat_ef. efc. rewrite ef_div_Fin by lra. reflexivity.
Qed.
Lemma std_vec : forall m x, (0 < m)%nat -> np_std (vec m x) = Fin (sqrt (total m (fun i => (x i - total m x / INR m) * (x i - total m x / INR m)) / INR m)).
Proof.
  intros m x Hm. assert (Rm : 0 < INR m) by (apply lt_0_INR, Hm). unfold np_std. rewrite mean_vec by exact Hm. unfold np_mean. rewrite !map_length. unfold vec. rewrite map_length, seq_length, !map_map.
  rewrite (np_sum_total_ext m _ (fun i => (x i - total m x / INR m) * (x i - total m x / INR m))).
  - rewrite nofnat_ef. efc. rewrite ef_div_Fin by lra. rewrite ef_sqrt_Fin; [reflexivity|].
    apply Rmult_le_pos; [apply total_nonneg; intros; apply Rle_0_sqr|]. left. apply Rinv_0_lt_compat. exact Rm.
  - intros i Hi. unfold nsq. efc. rewrite !ef_sub_Fin. reflexivity.
Qed.
Lemma z_spread : forall m x, spread_out m x -> exists mu d, np_std (vec m x) = Fin d /\ zscored (vec m x) = vec m (fun i => (x i - mu) / d) /\ standardized m mu d x (fun i => (x i - mu) / d).
Proof.
  intros m x (i0 & j0 & Hi & Hj & N). assert (Hm : (0 < m)%nat) by lia. assert (Rm : 0 < INR m) by (apply lt_0_INR, Hm).
  assert (M := mean_vec m x Hm). assert (S := std_vec m x Hm). set (mu := total m x / INR m) in *. set (v := total m (fun i => (x i - mu) * (x i - mu))) in *.
  assert (Pv : 0 < v).
  { assert (P : 0 <= v) by (apply total_nonneg; intros; apply Rle_0_sqr). destruct P as [P|P]; [exact P|exfalso].
    assert (Z : forall i, (i < m)%nat -> x i = mu).
    { intros i H. destruct (Req_dec (x i) mu) as [E|E]; [exact E|exfalso].
      assert (0 < v) by (apply (total_pos m (fun i => (x i - mu) * (x i - mu)) i H); [intros; apply Rle_0_sqr|apply Rlt_0_sqr; lra]). lra. }
    apply N. rewrite (Z i0 Hi), (Z j0 Hj). reflexivity. }
  set (d := sqrt (v / INR m)) in *. assert (Pq : 0 < v / INR m) by (apply Rdiv_lt_0_compat; assumption).
  assert (Ps : 0 < d) by (apply sqrt_lt_R0; exact Pq). assert (Ss : d * d = v / INR m) by (apply sqrt_sqrt; lra).
  assert (T1 : total m (fun i => x i - mu) = 0) by (rewrite total_sub, total_const; unfold mu; field; lra).
  exists mu, d. split; [exact S|]. split; [|split; [exact Ps|split; [reflexivity|split]]].
  - unfold zscored. rewrite M, S. unfold vec. rewrite map_map. apply map_ext. intros i. efc. rewrite ef_sub_Fin, ef_div_Fin by lra. reflexivity.
  - unfold Rdiv. rewrite total_mulr, T1. ring.
  - rewrite (total_ext m _ (fun i => (x i - mu) * (x i - mu) * / (d * d))) by (intros; field; lra).
    rewrite total_mulr. fold v. rewrite Ss. field. lra.
Qed.
Lemma z_equal : forall m x, (0 < m)%nat -> ~ spread_out m x -> np_std (vec m x) = Fin 0 /\ zscored (vec m x) = map (fun _ => NaN) (seq 0 m).
Proof.
  intros m x Hm N. assert (Rm : 0 < INR m) by (apply lt_0_INR, Hm).
  assert (E : forall i, (i < m)%nat -> x i = x 0%nat).
  { intros i Hi. destruct (Req_dec (x i) (x 0%nat)) as [E|E]; [exact E|exfalso]. apply N. exists i, 0%nat. auto. }
  assert (T : total m x / INR m = x 0%nat) by (rewrite (total_ext m x (fun _ => x 0%nat)) by exact E; rewrite total_const; field; lra).
  assert (S : np_std (vec m x) = Fin 0).
  { rewrite std_vec by exact Hm. rewrite T. rewrite (total_ext m _ (fun _ => 0)) by (intros i Hi; rewrite (E i Hi); ring). rewrite total_const. f_equal.
    replace (INR m * 0 / INR m) with 0 by (field; lra). apply sqrt_0. }
  split; [exact S|]. unfold zscored. rewrite S, mean_vec by exact Hm. rewrite T. unfold vec. rewrite map_map. apply map_ext_in. intros i Hi. apply in_seq in Hi.
  rewrite E by lia. efc. rewrite ef_sub_Fin. replace (x 0%nat - x 0%nat) with 0 by ring. unfold ef_div. destruct (Req_EM_T 0 0) as [_|B]; [|contradiction].
  rewrite ?Rltb_irrefl. reflexivity.
Qed.

Section Runs.
  Variable cdf : ef -> ef.
  Variable slsqp : (list ef -> ef) -> list ef -> bool * list ef.
  Variable pinv : arr2 ef -> res (arr2 ef).
  Lemma th_run_split : forall s z a, th_run cdf slsqp pinv s z a =
    do r <- th_run cdf slsqp pinv s false a;
    Ok (if z then (zscored (fst r), map (fun y => ndiv y (np_std (fst r))) (snd r)) else r).
  Proof. intros s z a. unfold th_run. destruct (th_resolve _ _ _ _ _) as [r|]; cbn [bind fst snd]; [|reflexivity]. destruct z; reflexivity. Qed.
  Lemma th_z_errors : forall s a e, th_run cdf slsqp pinv s true a = Err e <-> th_run cdf slsqp pinv s false a = Err e.
  Proof. intros s a e. unfold th_run. destruct (th_resolve _ _ _ _ _) as [r|]; cbn [bind]; split; intro H; congruence. Qed.
  Lemma th_z_scores : forall s a m x st, th_run cdf slsqp pinv s false a = Ok (vec m x, st) -> spread_out m x ->
    exists mu d z st', th_run cdf slsqp pinv s true a = Ok (vec m z, st') /\ standardized m mu d x z /\
      length st' = length st /\ (forall i, (i < length st)%nat -> nth i st' NaN = ef_div (nth i st NaN) (Fin d)).
  Proof.
    intros s a m x st H S. destruct (z_spread m x S) as (mu & d & E1 & E2 & E3). exists mu, d, (fun i => (x i - mu) / d), (map (fun y => ef_div y (Fin d)) st).
    split; [|split; [exact E3|split; [apply map_length|]]].
    - rewrite th_run_split, H. cbn [bind fst snd]. rewrite E1, E2. efc. reflexivity.
    - intros i Hi. rewrite (nth_indep _ NaN (ef_div NaN (Fin d))) by (rewrite map_length; exact Hi). apply (map_nth (fun y => ef_div y (Fin d))).
  Qed.
  Lemma th_z_equal : forall s a m x st, th_run cdf slsqp pinv s false a = Ok (vec m x, st) -> (0 < m)%nat -> ~ spread_out m x ->
    exists st', th_run cdf slsqp pinv s true a = Ok (map (fun _ => NaN) (seq 0 m), st') /\ length st' = length st /\
      (forall i y, (i < length st)%nat -> nth i st NaN = Fin y -> 0 < y -> nth i st' NaN = PInf).
  Proof.
    intros s a m x st H Hm S. destruct (z_equal m x Hm S) as (E1 & E2). exists (map (fun y => ef_div y (Fin 0)) st).
    split; [|split; [apply map_length|]].
    - rewrite th_run_split, H. cbn [bind fst snd]. rewrite E1, E2. efc. reflexivity.
    - intros i y Hi E Hy. rewrite (nth_indep _ NaN (ef_div NaN (Fin 0))) by (rewrite map_length; exact Hi). rewrite (map_nth (fun y => ef_div y (Fin 0))), E.
      unfold ef_div. destruct (Req_EM_T 0 0) as [_|B]; [|contradiction]. destruct (Req_EM_T y 0) as [B|_]; [lra|]. unfold Rltb. destruct (Rlt_dec 0 y); [reflexivity|contradiction].
  Qed.
  Lemma ci_nth : forall (r : list ef * list ef) i, (i < length (snd r))%nat -> nth i (th_ci r) NaN = ef_mul (Fin (195996 / 100000)) (nth i (snd r) NaN).
  Proof.
    intros r i Hi. unfold th_ci. rewrite (nth_indep _ NaN (pc_ci NaN)) by (rewrite map_length; exact Hi). rewrite (map_nth pc_ci). unfold pc_ci. efc.
    assert (D : (ndec 195996 100000 : ef) = Fin (195996 / 100000)). { unfold ndec. efc. rewrite ef_div_Fin by lra. reflexivity. } rewrite D. reflexivity.
  Qed.
  Lemma th_z_intervals : forall s a m x sd, th_run cdf slsqp pinv s false a = Ok (vec m x, vec m sd) -> spread_out m x ->
    exists mu d z r h h', th_run cdf slsqp pinv s true a = Ok r /\ fst r = vec m z /\ standardized m mu d x z /\
      th_ci (vec m x, vec m sd) = vec m h /\ th_ci r = vec m h' /\
      forall i y, (i < m)%nat -> Rabs ((y - mu) / d - z i) <= h' i <-> Rabs (y - x i) <= h i.
  Proof.
    intros s a m x sd H S. destruct (th_z_scores s a m x (vec m sd) H S) as (mu & d & z & st' & E & ST & L & N).
    assert (Lm : length (vec m sd) = m) by (unfold vec; rewrite map_length, seq_length; reflexivity). rewrite Lm in *.
    destruct ST as (Hd & Hz & Z1 & Z2).
    exists mu, d, z, (vec m z, st'), (fun i => 195996 / 100000 * sd i), (fun i => 195996 / 100000 * (sd i / d)). split; [exact E|]. split; [reflexivity|]. split; [repeat split; assumption|].
    assert (V : forall (l : list ef) f, length l = m -> (forall i, (i < m)%nat -> nth i l NaN = Fin (f i)) -> l = vec m f).
    { intros l f Ll A. apply (nth_ext _ _ NaN NaN); [unfold vec; rewrite map_length, seq_length; exact Ll|]. intros i Hi. rewrite Ll in Hi. rewrite A by exact Hi. symmetry. apply vat_vec. exact Hi. }
    assert (NV : forall i, (i < m)%nat -> nth i (vec m sd) NaN = Fin (sd i)) by (intros i Hi; apply vat_vec; exact Hi).
    split; [|split].
    - apply V; [unfold th_ci; rewrite map_length; exact Lm|]. intros i Hi. rewrite ci_nth by (cbn [snd]; rewrite Lm; exact Hi). cbn [snd]. rewrite NV by exact Hi. reflexivity.
    - apply V; [unfold th_ci; rewrite map_length; exact L|]. intros i Hi. rewrite ci_nth by (cbn [snd]; rewrite L; exact Hi). cbn [snd]. rewrite N, NV by exact Hi. rewrite ef_div_Fin by lra. reflexivity.
    - intros i y Hi. rewrite Hz by exact Hi. replace ((y - mu) / d - (x i - mu) / d) with ((y - x i) * / d) by (field; lra).
      rewrite Rabs_mult, (Rabs_pos_eq (/ d)) by (left; apply Rinv_0_lt_compat; exact Hd).
      replace (195996 / 100000 * (sd i / d)) with (195996 / 100000 * sd i * / d) by (field; lra). assert (P := Rinv_0_lt_compat d Hd).
      split; intro Q; [apply Rmult_le_reg_r in Q; assumption|apply Rmult_le_compat_r; lra].
  Qed.
End Runs.

(** Two videos, three comparisons; the optimizer answers 1 and 0, and the
    covariance has 4 everywhere. *)
Definition wz_x (i : nat) : R := match i with O => 1 | _ => 0 end.
Definition wz_min (f : list ef -> ef) (v : list ef) : bool * list ef := (true, vec 2 wz_x).
Definition wz_pinv (a : arr2 ef) : res (arr2 ef) := Ok (Arr2 3 3 (fun _ _ => Fin 4)).
Lemma wz_run : th_run ncdf wz_min wz_pinv true false wb_votes = Ok (vec 2 wz_x, vec 2 (fun _ => 2)).
Proof.
  unfold th_run, th_resolve, wz_min, wz_pinv. cbn [win_matrix n0 n1 wb_votes dE dS Nat.eqb assert_ bind fst snd th_v th_std]. f_equal. f_equal.
  unfold sqrt_diagonal. cbn [seq map at2]. efc. rewrite ef_sqrt_Fin by lra. unfold vec. cbn [seq map]. replace (sqrt 4) with 2; [reflexivity|].
  replace 4 with (2 * 2) by ring. symmetry. apply sqrt_square. lra.
Qed.
Lemma wz_spread : spread_out 2 wz_x.
Proof. exists 0%nat, 1%nat. repeat split; [lia|lia|]. cbn. lra. Qed.
Definition wz_same (f : list ef -> ef) (v : list ef) : bool * list ef := (true, vec 2 (fun _ => 0)).
Lemma wz_equal : th_run ncdf wz_same wz_pinv true false wb_votes = Ok (vec 2 (fun _ => 0), vec 2 (fun _ => 2)) /\ ~ spread_out 2 (fun _ => 0).
Proof.
  split; [|intros (i & j & _ & _ & N); apply N; reflexivity].
  unfold th_run, th_resolve, wz_same, wz_pinv. cbn [win_matrix n0 n1 wb_votes dE dS Nat.eqb assert_ bind fst snd th_v th_std]. f_equal. f_equal.
  unfold sqrt_diagonal. cbn [seq map at2]. efc. rewrite ef_sqrt_Fin by lra. unfold vec. cbn [seq map]. replace (sqrt 4) with 2; [reflexivity|].
  replace 4 with (2 * 2) by ring. symmetry. apply sqrt_square. lra.
Qed.
