(** Proofs for claims C120-C122. *)
From Coq Require Import String.
From Coq Require Import List ZArith Bool Arith Reals Lra Lia.
From Verif Require Import PyBase Num ExtReal NumPy Dataset Preproc Mos AP SpecMos SpecAp SpecDescent
  BaseProofs ExtRealProofs ArrayProofs MosProofs StepsProofs ApProofs Ap2Proofs Ap3Proofs Ap4Proofs Ap5Proofs Ap6Proofs Ap7Proofs Ap8Proofs Ap9Proofs Ap40Proofs Ap41Proofs Mle2Proofs.
Import ListNotations.
Local Open Scope list_scope.
Local Open Scope R_scope.

Definition eps : R := 1 / 100000000.
Lemma eps_pos : 0 < eps. Proof. unfold eps. lra. Qed.

Lemma ln_le_sub1 : forall y, 0 < y -> ln y <= y - 1.
Proof.
  intros y H. destruct (Req_dec (ln y) 0) as [E|N].
  - assert (Y : y = 1) by (rewrite <- (exp_ln y H), E; apply exp_0). subst y. rewrite ln_1. lra.
  - assert (X := exp_ineq1 _ N). rewrite exp_ln in X by exact H. lra.
Qed.
Lemma ln_step : forall a a', 0 < a -> 0 < a' -> ln a' <= ln a + (a' - a) / a.
Proof.
  intros a a' H H'. assert (L := ln_le_sub1 (a' / a) (Rdiv_lt_0_compat _ _ H' H)). unfold Rdiv in L. rewrite ln_mult in L by (try apply Rinv_0_lt_compat; assumption).
  rewrite ln_Rinv in L by exact H. replace ((a' - a) / a) with (a' * / a - 1) by (field; lra). lra.
Qed.

Section Descent.
  Context (x : arr3 ef).
  Definition sse (q b : nat -> R) (i : nat) : R := ssum x i (fun e v => (v - q e - b i) * (v - q e - b i)).
  Definition mis (q b : nat -> R) : R := Rsum (map (fun i => scount x i * ln (sse q b i / scount x i + eps)) (seq 0 (dS x))).
  Lemma scount_nonneg : forall i, 0 <= scount x i.
  Proof. intros i. apply ssum_nonneg. intros. lra. Qed.
  Lemma sse_nonneg : forall q b i, 0 <= sse q b i.
  Proof. intros q b i. apply ssum_nonneg. intros. apply Rle_0_sqr. Qed.
  Lemma idle_ssum : forall i f, scount x i = 0 -> ssum x i f = 0.
  Proof.
    intros i f H. unfold scount, ssum in H. unfold ssum. 
    assert (Z : forall e r, In e (seq 0 (dE x)) -> In r (seq 0 (dR x)) -> vote_term (fun _ => 1) (at3 x e i r) = 0).
    { intros e r He Hr. assert (P : forall e r, 0 <= vote_term (fun _ => 1) (at3 x e i r)) by (intros; destruct (at3 x e0 i r0); cbn; lra).
      assert (A : Rsum (map (fun r => vote_term (fun _ => 1) (at3 x e i r)) (seq 0 (dR x))) = 0).
      { apply (Rsum_eq0 _) with (2 := H); [|apply in_map_iff; exists e; split; [reflexivity|exact He]]. intros y Hy. apply in_map_iff in Hy as (e' & <- & _). apply Rsum_nonneg. intros y Hy.
        apply in_map_iff in Hy as (r' & <- & _). apply P. }
      apply (Rsum_eq0 _) with (2 := A); [|apply in_map_iff; exists r; split; [reflexivity|exact Hr]]. intros y Hy. apply in_map_iff in Hy as (r' & <- & _). apply P. }
    rewrite (Rsum_map_ext _ _ (fun _ => 0)); [apply Rsum_zeros|]. intros e He. rewrite (Rsum_map_ext _ _ (fun _ => 0)); [apply Rsum_zeros|]. intros r Hr.
    assert (Y := Z e r He Hr). destruct (at3 x e i r); cbn in *; lra.
  Qed.
  Lemma arg_pos : forall q b i, 0 < sse q b i / scount x i + eps.
  Proof.
    intros q b i. assert (H := sse_nonneg q b i). assert (E := eps_pos). destruct (Req_dec (scount x i) 0) as [Z|Z].
    - unfold sse. rewrite idle_ssum by exact Z. unfold Rdiv. lra.
    - assert (P := scount_nonneg i). assert (0 <= sse q b i / scount x i) by (apply Rmult_le_pos; [exact H|apply Rlt_le, Rinv_0_lt_compat; lra]). lra.
  Qed.
  Lemma weight_sse : forall p i, weight x p i = / (sse (eq_ p) (eb_ p) i / scount x i + eps).
  Proof.
    intros p i. unfold weight, rms. fold (sse (eq_ p) (eb_ p) i).
    assert (H := sse_nonneg (eq_ p) (eb_ p) i). assert (P : 0 <= sse (eq_ p) (eb_ p) i / scount x i).
    { destruct (Req_dec (scount x i) 0) as [Z|Z]; [unfold sse; rewrite idle_ssum by exact Z; unfold Rdiv; lra|]. assert (P := scount_nonneg i). apply Rmult_le_pos; [exact H|apply Rlt_le, Rinv_0_lt_compat; lra]. }
    change (ssum x i (fun e v => (v - eq_ p e - eb_ p i) * (v - eq_ p e - eb_ p i))) with (sse (eq_ p) (eb_ p) i). rewrite sqrt_sqrt by exact P. unfold eps, Rdiv. rewrite Rmult_1_l. reflexivity.
  Qed.
  (** Replacing the biases. *)
  Lemma sse_bias : forall q b i, (i < dS x)%nat -> sse q b i = sse q (mean_diff x q) i + scount x i * ((b i - mean_diff x q i) * (b i - mean_diff x q i)).
  Proof.
    intros q b i Hi. destruct (Req_dec (scount x i) 0) as [Z|Z]; [unfold sse; rewrite !idle_ssum by exact Z; rewrite Z; ring|].
    set (m := mean_diff x q i). assert (M : ssum x i (fun e v => v - q e) = m * scount x i) by (unfold m, mean_diff; field; exact Z).
    unfold sse. fold m. rewrite (ssum_ext x i _ (fun e v => (v - q e - m) * (v - q e - m) + ((-2 * (b i - m)) * (v - q e) + ((b i - m) * (b i + m)) * 1)));
      [|intros; ring]. rewrite !ssum_add, !ssum_mul, M. fold (scount x i). ring.
  Qed.
  (** Exchange of the sums. *)
  Lemma sum_exchange : forall f : nat -> nat -> R -> R, Rsum (map (fun i => ssum x i (fun e v => f e i v)) (seq 0 (dS x))) = Rsum (map (fun e => vsum x e (fun i v => f e i v)) (seq 0 (dE x))).
  Proof. intros f. unfold ssum, vsum. apply Rsum_swap. Qed.
  (** Replacing the scores by weighted means. *)
  Lemma sse_quality : forall p, all_rated x -> let q' := debiased_mean x p in
    Rsum (map (fun i => weight x p i * sse (eq_ p) (eb_ p) i) (seq 0 (dS x))) =
    Rsum (map (fun i => weight x p i * sse q' (eb_ p) i) (seq 0 (dS x))) +
    Rsum (map (fun e => vsum x e (fun i _ => weight x p i) * ((eq_ p e - q' e) * (eq_ p e - q' e))) (seq 0 (dE x))).
  Proof.
    intros p HR q'. 
    assert (X : forall q, Rsum (map (fun i => weight x p i * sse q (eb_ p) i) (seq 0 (dS x))) =
      Rsum (map (fun e => vsum x e (fun i v => weight x p i * ((v - q e - eb_ p i) * (v - q e - eb_ p i)))) (seq 0 (dE x)))).
    { intros q. rewrite <- sum_exchange. apply Rsum_map_ext. intros i _. unfold sse. rewrite ssum_mul. reflexivity. }
    rewrite !X, <- Rsum_map_add. apply Rsum_map_ext. intros e He. apply in_seq in He.
    assert (P : 0 < vsum x e (fun i _ => weight x p i)) by (apply rated_pos; [apply HR; lia|intros; apply weight_pos]).
    assert (M : vsum x e (fun i v => weight x p i * (v - eb_ p i)) = q' e * vsum x e (fun i _ => weight x p i)) by (unfold q', debiased_mean; field; lra).
    rewrite (vsum_ext x e _ (fun i v => weight x p i * ((v - q' e - eb_ p i) * (v - q' e - eb_ p i)) + ((-2 * (eq_ p e - q' e)) * (weight x p i * (v - eb_ p i)) +
      ((eq_ p e - q' e) * (eq_ p e + q' e)) * weight x p i))); [|intros; ring].
    rewrite !vsum_add, !vsum_mul, M. ring.
  Qed.
  (** One pass. *)
  Definition gain (p : est) : R :=
    Rsum (map (fun e => vsum x e (fun i _ => weight x p i) * ((eq_ p e - debiased_mean x p e) * (eq_ p e - debiased_mean x p e))) (seq 0 (dE x))).
  Lemma mis_step : forall p, all_rated x -> mis (eq_ (next x p)) (eb_ (next x p)) + gain p <= mis (eq_ p) (eb_ p).
  Proof.
    intros p HR. cbn [next eq_ eb_]. set (q' := debiased_mean x p).
    assert (A : mis q' (mean_diff x q') <= mis (eq_ p) (eb_ p) + (Rsum (map (fun i => weight x p i * sse q' (mean_diff x q') i) (seq 0 (dS x))) -
       Rsum (map (fun i => weight x p i * sse (eq_ p) (eb_ p) i) (seq 0 (dS x))))).
    { unfold mis. rewrite <- Rsum_map_sub, <- Rsum_map_add. apply Rsum_le. intros i _. destruct (Req_dec (scount x i) 0) as [Z|Z].
      - rewrite Z. unfold sse. rewrite !idle_ssum by exact Z. lra.
      - assert (P := scount_nonneg i). assert (L := ln_step _ _ (arg_pos (eq_ p) (eb_ p) i) (arg_pos q' (mean_diff x q') i)).
        apply (Rmult_le_compat_l (scount x i)) in L; [|lra]. eapply Rle_trans; [exact L|]. apply Req_le. rewrite weight_sse.
        assert (G := arg_pos (eq_ p) (eb_ p) i). set (a := sse (eq_ p) (eb_ p) i / scount x i + eps) in *. set (a' := sse q' (mean_diff x q') i / scount x i + eps) in *.
        replace (sse q' (mean_diff x q') i) with (scount x i * (a' - eps)) by (unfold a'; field; exact Z).
        replace (sse (eq_ p) (eb_ p) i) with (scount x i * (a - eps)) by (unfold a; field; exact Z). field. lra. }
    assert (B := sse_quality p HR). cbv zeta in B. fold (gain p) in B. fold q' in B.
    assert (C : Rsum (map (fun i => weight x p i * sse q' (mean_diff x q') i) (seq 0 (dS x))) <= Rsum (map (fun i => weight x p i * sse q' (eb_ p) i) (seq 0 (dS x)))).
    { apply Rsum_le. intros i Hi. apply in_seq in Hi. apply Rmult_le_compat_l; [apply Rlt_le, weight_pos|]. rewrite (sse_bias q' (eb_ p) i) by lia.
      assert (0 <= scount x i * ((eb_ p i - mean_diff x q' i) * (eb_ p i - mean_diff x q' i))) by (apply Rmult_le_pos; [apply scount_nonneg|apply Rle_0_sqr]). lra. }
    lra.
  Qed.
  Lemma gain_nonneg : forall p, 0 <= gain p.
  Proof.
    intros p. apply Rsum_nonneg. intros y Hy. apply in_map_iff in Hy as (e & <- & _). apply Rmult_le_pos; [apply vsum_nonneg; intros; apply Rlt_le, weight_pos|apply Rle_0_sqr].
  Qed.
  Lemma gain_zero : forall p, all_rated x -> gain p = 0 -> forall e, (e < dE x)%nat -> debiased_mean x p e = eq_ p e.
  Proof.
    intros p HR H e He. assert (Z : vsum x e (fun i _ => weight x p i) * ((eq_ p e - debiased_mean x p e) * (eq_ p e - debiased_mean x p e)) = 0).
    { apply (Rsum_eq0 _) with (2 := H).
      - intros y Hy. apply in_map_iff in Hy as (e' & <- & _). apply Rmult_le_pos; [apply vsum_nonneg; intros; apply Rlt_le, weight_pos|apply Rle_0_sqr].
      - apply in_map_iff. exists e. split; [reflexivity|]. apply in_seq. lia. }
    assert (P : 0 < vsum x e (fun i _ => weight x p i)) by (apply rated_pos; [apply HR; exact He|intros; apply weight_pos]).
    apply Rmult_integral in Z as [Z|Z]; [lra|]. apply Rmult_integral in Z as [Z|Z]; lra.
  Qed.
  (** ** Convergence *)
  Definition votes_n : R := Rsum (map (scount x) (seq 0 (dS x))).
  Definition excess (q b : nat -> R) : R := mis q b - votes_n * ln eps.
  Lemma excess_sum : forall q b, excess q b = Rsum (map (fun i => scount x i * (ln (sse q b i / scount x i + eps) - ln eps)) (seq 0 (dS x))).
  Proof.
    intros q b. unfold excess, mis, votes_n. rewrite (Rmult_comm _ (ln eps)), <- Rsum_map_mul, <- Rsum_map_sub. apply Rsum_map_ext. intros. ring.
  Qed.
  Lemma term_nonneg : forall q b i, 0 <= scount x i * (ln (sse q b i / scount x i + eps) - ln eps).
  Proof.
    intros q b i. apply Rmult_le_pos; [apply scount_nonneg|]. assert (E := eps_pos). 
    assert (S : 0 <= sse q b i / scount x i).
    { destruct (Req_dec (scount x i) 0) as [Z|Z]; [unfold sse; rewrite idle_ssum by exact Z; unfold Rdiv; lra|]. assert (P := scount_nonneg i). apply Rmult_le_pos; [apply sse_nonneg|apply Rlt_le, Rinv_0_lt_compat; lra]. }
    destruct S as [S|S]; [|rewrite <- S, Rplus_0_l; lra]. assert (ln eps < ln (sse q b i / scount x i + eps)) by (apply ln_increasing; lra). lra.
  Qed.
  Lemma excess_nonneg : forall q b, 0 <= excess q b.
  Proof. intros. rewrite excess_sum. apply Rsum_nonneg. intros y Hy. apply in_map_iff in Hy as (i & <- & _). apply term_nonneg. Qed.
  Lemma count_ge1 : forall i, voted x i -> 1 <= scount x i.
  Proof. intros i (e & r & v & HI & E). exact (ssum_ge x i (fun _ _ => 1) e r v (fun _ _ => Rle_0_1) HI E). Qed.
  Lemma spread_bound : forall q b i, (i < dS x)%nat -> voted x i -> sse q b i / scount x i + eps <= eps * exp (excess q b).
  Proof.
    intros q b i Hi V. assert (C := count_ge1 i V). assert (E := eps_pos).
    assert (T : scount x i * (ln (sse q b i / scount x i + eps) - ln eps) <= excess q b).
    { rewrite excess_sum. apply Rsum_ge_elt; [intros y Hy; apply in_map_iff in Hy as (j & <- & _); apply term_nonneg|]. apply in_map_iff. exists i. split; [reflexivity|]. apply in_seq. lia. }
    assert (N := term_nonneg q b i). assert (D : ln (sse q b i / scount x i + eps) - ln eps <= excess q b).
    { assert (K : 0 <= ln (sse q b i / scount x i + eps) - ln eps). { apply (Rmult_le_reg_l (scount x i)); [lra|]. rewrite Rmult_0_r. exact N. }
      apply Rle_trans with (2 := T). rewrite <- (Rmult_1_l (ln _ - ln eps)) at 1. apply Rmult_le_compat_r; assumption. }
    assert (L : ln (sse q b i / scount x i + eps) <= ln (eps * exp (excess q b))) by (rewrite ln_mult by (try apply exp_pos; exact E); rewrite ln_exp; lra).
    destruct (Rle_or_lt (sse q b i / scount x i + eps) (eps * exp (excess q b))) as [G|G]; [exact G|]. exfalso. apply ln_increasing in G; [lra|]. apply Rmult_lt_0_compat; [exact E|apply exp_pos].
  Qed.
  Lemma gain_bound : forall p, all_rated x -> Rsum (map (fun e => (eq_ p e - debiased_mean x p e) * (eq_ p e - debiased_mean x p e)) (seq 0 (dE x))) <= gain p * (eps * exp (excess (eq_ p) (eb_ p))).
  Proof.
    intros p HR. unfold gain. rewrite <- Rsum_map_mulr. apply Rsum_le. intros e He. apply in_seq in He. set (d := (eq_ p e - debiased_mean x p e) * (eq_ p e - debiased_mean x p e)).
    assert (D : 0 <= d) by apply Rle_0_sqr. destruct (HR e) as (i & r & v & HI & Ev); [lia|]. set (B := eps * exp (excess (eq_ p) (eb_ p))).
    assert (PB : 0 < B) by (apply Rmult_lt_0_compat; [apply eps_pos|apply exp_pos]).
    assert (W : weight x p i <= vsum x e (fun i _ => weight x p i)) by (apply (vsum_ge x e (fun i _ => weight x p i) i r v); [intros; apply Rlt_le, weight_pos|exact HI|exact Ev]).
    assert (K : 1 <= weight x p i * B).
    { rewrite weight_sse. assert (G := arg_pos (eq_ p) (eb_ p) i). assert (U : sse (eq_ p) (eb_ p) i / scount x i + eps <= B) by (apply spread_bound; [destruct HI as (_ & Hi & _); exact Hi|exists e, r, v; split; assumption]).
      set (a := sse (eq_ p) (eb_ p) i / scount x i + eps) in *. apply (Rmult_le_reg_l a); [exact G|]. rewrite <- Rmult_assoc, Rinv_r by lra. lra. }
    assert (K2 : 1 <= vsum x e (fun i _ => weight x p i) * B) by (apply Rle_trans with (1 := K); apply Rmult_le_compat_r; [lra|exact W]).
    replace (vsum x e (fun i _ => weight x p i) * d * B) with (vsum x e (fun i _ => weight x p i) * B * d) by ring. rewrite <- (Rmult_1_l d) at 1. apply Rmult_le_compat_r; assumption.
  Qed.
  Definition ex (n : nat) : R := excess (eq_ (iterate x n)) (eb_ (iterate x n)).
  Lemma ex_step : all_rated x -> forall n, ex (S n) + gain (iterate x n) <= ex n.
  Proof. intros HR n. unfold ex, excess. assert (H := mis_step (iterate x n) HR). change (iterate x (S n)) with (next x (iterate x n)). lra. Qed.
  Lemma ex_le0 : all_rated x -> forall n, ex n <= ex 0.
  Proof. intros HR. induction n as [|n IH]; [lra|]. assert (H := ex_step HR n). assert (G := gain_nonneg (iterate x n)). lra. Qed.
  Lemma ex_nonneg : forall n, 0 <= ex n.
  Proof. intros. apply excess_nonneg. Qed.
  Lemma change_bound : all_rated x -> forall n, change x n * change x n <= (ex n - ex (S n)) * (eps * exp (ex 0)).
  Proof.
    intros HR n. unfold change. rewrite sqrt_sqrt by (apply Rsum_nonneg; intros y Hy; apply in_map_iff in Hy as (e & <- & _); apply Rle_0_sqr).
    change (iterate x (S n)) with (next x (iterate x n)) at 1 2. cbn [next eq_]. eapply Rle_trans; [apply gain_bound; exact HR|]. fold (ex n).
    assert (G := gain_nonneg (iterate x n)). assert (H := ex_step HR n). assert (E := eps_pos).
    assert (P : 0 < eps * exp (ex n)) by (apply Rmult_lt_0_compat; [exact E|apply exp_pos]).
    assert (M : eps * exp (ex n) <= eps * exp (ex 0)).
    { apply Rmult_le_compat_l; [lra|]. destruct (ex_le0 HR n) as [L|L]; [apply Rlt_le, exp_increasing, L|rewrite L; lra]. }
    apply Rle_trans with ((ex n - ex (S n)) * (eps * exp (ex n))); [apply Rmult_le_compat_r; lra|]. apply Rmult_le_compat_l; lra.
  Qed.
  Lemma changes_vanish : all_rated x -> forall d, 0 < d -> exists n0, forall n, (n0 <= n)%nat -> change x n < d.
  Proof.
    intros HR d Hd. assert (C : {l | Un_cv ex l}).
    { apply decreasing_cv; [intros n; assert (H := ex_step HR n); assert (G := gain_nonneg (iterate x n)); lra|]. exists 0. intros y (n & ->). unfold opp_seq. assert (H := ex_nonneg n). lra. }
    destruct C as (l & C). set (B := eps * exp (ex 0)). assert (PB : 0 < B) by (apply Rmult_lt_0_compat; [apply eps_pos|apply exp_pos]).
    assert (Q : Cauchy_crit ex) by (apply CV_Cauchy; exists l; exact C). destruct (Q (d * d / B)) as (n0 & H0); [apply Rdiv_lt_0_compat; [apply Rmult_lt_0_compat; exact Hd|exact PB]|].
    exists n0. intros n Hn. assert (D := H0 n (S n) ltac:(lia) ltac:(lia)). unfold R_dist in D. assert (A := Rle_abs (ex n - ex (S n))). assert (K := change_bound HR n). fold B in K.
    assert (F : change x n * change x n < d * d).
    { eapply Rle_lt_trans; [exact K|]. apply (Rmult_lt_reg_r (/ B)); [apply Rinv_0_lt_compat, PB|]. rewrite Rmult_assoc, Rinv_r, Rmult_1_r by lra. unfold Rdiv in D. lra. }
    destruct (Rlt_or_le (change x n) d) as [G|G]; [exact G|]. exfalso. assert (d * d <= change x n * change x n) by (apply Rmult_le_compat; lra). lra.
  Qed.
End Descent.

(** ** Lists *)
Lemma value_map : forall (f : nat -> ef) n k, (k < n)%nat -> value (map f (seq 0 n)) k = match f k with Fin v => v | _ => 0 end.
Proof. intros f n k H. unfold value. rewrite (nth_indep _ NaN (f 0%nat)) by (rewrite map_length, seq_length; exact H). rewrite map_nth, seq_nth by exact H. reflexivity. Qed.
Lemma value_q : forall x p e, (e < dE x)%nat -> value (qlist x p) e = eq_ p e.
Proof. intros x p e H. unfold qlist. rewrite value_map by exact H. reflexivity. Qed.
Lemma value_b : forall x p i, (i < dS x)%nat -> scount x i <> 0 -> value (blist x p) i = eb_ p i.
Proof. intros x p i H N. unfold blist. rewrite value_map by exact H. rewrite nan_if0_ne by exact N. reflexivity. Qed.
Lemma misfit_mis : forall x s b q bb, (forall e, (e < dE x)%nat -> value s e = q e) -> (forall i, (i < dS x)%nat -> scount x i <> 0 -> value b i = bb i) ->
  misfit x s b = mis x q bb.
Proof.
  intros x s b q bb Hq Hb. unfold misfit, mis. apply Rsum_map_ext. intros i Hi. apply in_seq in Hi. destruct (Req_dec (scount x i) 0) as [Z|Z]; [rewrite Z; ring|].
  f_equal. f_equal. unfold mean_square, sse, eps. f_equal. f_equal. apply ssum_ext. intros e r v He _ _. rewrite Hq by exact He. rewrite Hb by (try exact Z; lia). reflexivity.
Qed.
Lemma misfit_lists : forall x p, misfit x (qlist x p) (blist x p) = mis x (eq_ p) (eb_ p).
Proof. intros. apply misfit_mis; [intros; apply value_q; assumption|intros; apply value_b; assumption]. Qed.
Lemma mis_shift : forall x p m, mis x (eq_ (shifted m p)) (eb_ (shifted m p)) = mis x (eq_ p) (eb_ p).
Proof.
  intros. unfold mis. apply Rsum_map_ext. intros i _. do 4 f_equal. unfold sse. apply ssum_ext. intros. cbn [shifted eq_ eb_]. ring.
Qed.
Lemma mis_reported : forall x f p, mis x (eq_ (reported f x p)) (eb_ (reported f x p)) = mis x (eq_ p) (eb_ p).
Proof. intros x [] p; [apply mis_shift|reflexivity]. Qed.
(** The best biases. *)
Lemma mis_best_bias : forall x q b, mis x q (mean_diff x q) <= mis x q b.
Proof.
  intros x q b. unfold mis. apply Rsum_le. intros i Hi. apply in_seq in Hi. destruct (Req_dec (scount x i) 0) as [Z|Z]; [rewrite Z; lra|].
  assert (P := scount_nonneg x i). apply Rmult_le_compat_l; [exact P|]. assert (H : sse x q (mean_diff x q) i / scount x i + eps <= sse x q b i / scount x i + eps).
  { apply Rplus_le_compat_r. apply Rmult_le_compat_r; [apply Rlt_le, Rinv_0_lt_compat; lra|]. rewrite (sse_bias x q b i) by lia.
    assert (0 <= scount x i * ((b i - mean_diff x q i) * (b i - mean_diff x q i))) by (apply Rmult_le_pos; [exact P|apply Rle_0_sqr]). lra. }
  assert (G := arg_pos x q (mean_diff x q) i). destruct H as [H|H]; [apply Rlt_le, ln_increasing; assumption|rewrite H; lra].
Qed.

Lemma c120_descent : forall x s b e', finite_votes x -> all_rated x -> reachable x s b -> ap_pass x s b = Ok e' ->
  misfit x (es e') (eb e') <= misfit x s b /\ (misfit x (es e') (eb e') = misfit x s b <-> es e' = s).
Proof.
  intros x s b e' HF HR Hreach E. destruct (reachable_iterate x s b HF HR Hreach) as (n & -> & ->).
  rewrite pass_spec in E by (try assumption; apply iterate_consistent). apply StepsProofs.Ok_inj in E. subst e'. cbn [es eb]. rewrite !misfit_lists.
  set (p := iterate x n). assert (H := mis_step x p HR). assert (G := gain_nonneg x p). split; [lra|]. split.
  - intros K. assert (Z : gain x p = 0) by lra. unfold qlist. apply map_ext_in. intros e He. apply in_seq in He. f_equal. cbn [next eq_]. apply gain_zero; [exact HR|exact Z|lia].
  - intros K. assert (Q : forall e, (e < dE x)%nat -> eq_ (next x p) e = eq_ p e). { intros e He. rewrite <- (value_q x (next x p) e He), <- (value_q x p e He). unfold value. rewrite K. reflexivity. }
    rewrite <- !misfit_lists. rewrite K. f_equal. unfold blist. apply map_ext. intros i. f_equal. rewrite (iterate_consistent x n i : eb_ p i = mean_diff x (eq_ p) i). cbn [next eb_]. unfold mean_diff. f_equal.
    apply ssum_ext. intros e r v He _ _. f_equal. exact (Q e He).
Qed.

Lemma misfit_iterates : forall x n, all_rated x -> mis x (eq_ (iterate x n)) (eb_ (iterate x n)) <= mis x (eq_ (start x)) (eb_ (start x)) /\
  ((1 <= n)%nat -> 0 < change x 0 -> mis x (eq_ (iterate x n)) (eb_ (iterate x n)) < mis x (eq_ (start x)) (eb_ (start x))).
Proof.
  intros x n HR.
  assert (D : forall k m, mis x (eq_ (iterate x (k + m))) (eb_ (iterate x (k + m))) <= mis x (eq_ (iterate x m)) (eb_ (iterate x m))).
  { induction k as [|k IH]; intros m; [apply Rle_refl|]. assert (H := mis_step x (iterate x (k + m)) HR). assert (G := gain_nonneg x (iterate x (k + m))). specialize (IH m).
    change (iterate x (S k + m)) with (next x (iterate x (k + m))). lra. }
  split; [specialize (D n 0%nat); rewrite Nat.add_0_r in D; exact D|]. intros Hn C. assert (H := mis_step x (start x) HR). specialize (D (n - 1)%nat 1%nat). replace (n - 1 + 1)%nat with n in D by lia.
  change (iterate x 1) with (next x (start x)) in D. enough (0 < gain x (start x)) by lra. destruct (gain_nonneg x (start x)) as [G|G]; [exact G|]. exfalso.
  assert (Z : change x 0 = 0).
  { unfold change. rewrite (Rsum_map_ext _ _ (fun _ => 0)); [rewrite Rsum_zeros; apply sqrt_0|]. intros e He. apply in_seq in He.
    change (iterate x 1) with (next x (start x)). change (iterate x 0) with (start x). cbn [next eq_]. rewrite (gain_zero x (start x) HR (eq_sym G) e) by lia. change (eq_ (start x) e) with (mean_vote x e). ring. }
  lra.
Qed.

Lemma c120_result : forall chi c (rd : reader ef) f a m, rd_arr rd = Ok a -> (all_voted a \/ f = Some false) -> ap_run_modeling chi c rd no_options f = Ok m ->
  forall s0 b0, (forall e, (e < dE a)%nat -> value s0 e = Rmean (video_votes a e)) ->
    misfit a (ap_quality m) (ap_bias m) <= misfit a s0 b0 /\ ((1 < ap_iter m)%nat -> misfit a (ap_quality m) (ap_bias m) < misfit a s0 b0).
Proof.
  intros chi c rd f a m Ha HV H s0 b0 H0. destruct (run_solved_any chi c rd f a m Ha HV H) as (n & Hn & S). assert (HF := run_finite chi c rd f a m Ha H). assert (HR := run_rated chi c rd f a m Ha HF H).
  assert (E : misfit a (ap_quality m) (ap_bias m) = mis a (eq_ (iterate a n)) (eb_ (iterate a n))).
  { rewrite <- (mis_reported a (match f with Some b => b | None => true end) (iterate a n)). apply misfit_mis.
    - intros e He. rewrite (sv_quality _ _ _ _ _ _ S). rewrite value_map by exact He. reflexivity.
    - intros i Hi N. rewrite (sv_bias _ _ _ _ _ _ S). rewrite value_map by exact Hi. unfold if_voted. destruct (Req_EM_T (scount a i) 0); [contradiction|reflexivity]. }
  assert (E0 : misfit a s0 b0 = mis a (mean_vote a) (value b0)) by (apply misfit_mis; [intros e He; rewrite H0 by exact He; apply video_mean|reflexivity]).
  assert (B := mis_best_bias a (mean_vote a) (value b0)). destruct (misfit_iterates a n HR) as [I1 I2]. change (mis a (eq_ (start a)) (eb_ (start a))) with (mis a (mean_vote a) (mean_diff a (mean_vote a))) in I1, I2.
  rewrite E, E0. split; [lra|]. intros K. rewrite (sv_iter _ _ _ _ _ _ S) in K. destruct Hn as (N1 & _ & N3). assert (C := N3 1%nat ltac:(lia)). change (1 - 1)%nat with 0%nat in C. assert (I := I2 ltac:(lia) ltac:(lra)). lra.
Qed.

(** ** Convergence *)
Lemma after_iterate : forall x n s b, finite_votes x -> all_rated x -> after x n s b -> s = qlist x (iterate x n) /\ b = blist x (iterate x n).
Proof.
  intros x n s b HF HR H. induction H as [|n s b e H IH E].
  - cbn [iterate]. rewrite start_q by assumption. rewrite start_b by assumption. auto.
  - destruct IH as (-> & ->). rewrite pass_spec in E by (try assumption; apply iterate_consistent). apply StepsProofs.Ok_inj in E. subst e. auto.
Qed.
Lemma after_exists : forall x n, finite_votes x -> all_rated x -> exists s b e', after x n s b /\ ap_pass x s b = Ok e'.
Proof.
  intros x n HF HR. assert (A : after x n (qlist x (iterate x n)) (blist x (iterate x n))).
  { induction n as [|n IH].
    - assert (Q := start_q x HF HR). assert (B := start_b x HF). cbn [iterate]. rewrite <- Q in B |- *. rewrite <- B. constructor.
    - change (iterate x (S n)) with (next x (iterate x n)). exact (after_pass x n _ _ _ IH (pass_spec x (iterate x n) HF HR (iterate_consistent x n))). }
  do 3 eexists. split; [exact A|]. apply (pass_spec x (iterate x n) HF HR (iterate_consistent x n)).
Qed.
Lemma distance_change : forall x n, distance x (qlist x (iterate x n)) (qlist x (iterate x (S n))) = change x n.
Proof. intros x n. unfold distance, change. f_equal. apply Rsum_map_ext. intros e He. apply in_seq in He. rewrite !value_q by lia. reflexivity. Qed.
Lemma c121_converges : forall x, finite_votes x -> all_rated x -> forall d, 0 < d -> exists n0, forall n s b e', (n0 <= n)%nat -> after x n s b -> ap_pass x s b = Ok e' -> distance x s (es e') < d.
Proof.
  intros x HF HR d Hd. destruct (changes_vanish x HR d Hd) as (n0 & H). exists n0. intros n s b e' Hn HA E. destruct (after_iterate x n s b HF HR HA) as (-> & ->).
  rewrite pass_spec in E by (try assumption; apply iterate_consistent). apply StepsProofs.Ok_inj in E. subst e'. cbn [es]. change (next x (iterate x n)) with (iterate x (S n)). rewrite distance_change. exact (H n Hn).
Qed.

(** ** Stationary points *)
Lemma with_value_len : forall l k t, (k < length l)%nat -> length (with_value l k t) = length l.
Proof. intros l k t H. unfold with_value. rewrite app_length, firstn_length. cbn [length]. rewrite skipn_length. lia. Qed.
Lemma with_value_at : forall l k t j, (k < length l)%nat -> value (with_value l k t) j = if Nat.eqb j k then t else value l j.
Proof.
  intros l k t j H. unfold value, with_value. assert (L : length (firstn k l) = k) by (rewrite firstn_length; lia). destruct (Nat.eqb_spec j k) as [->|N].
  - rewrite app_nth2 by lia. rewrite L, Nat.sub_diag. reflexivity.
  - destruct (Nat.lt_ge_cases j k) as [J|J].
    + rewrite app_nth1 by lia. rewrite <- (firstn_skipn k l) at 2. rewrite app_nth1 by lia. reflexivity.
    + rewrite app_nth2 by lia. rewrite L. destruct (j - k)%nat as [|d] eqn:D; [lia|]. cbn [nth].
      replace (nth j l NaN) with (nth d (skipn (S k) l) NaN); [reflexivity|].
      rewrite <- (firstn_skipn (S k) l) at 2. rewrite app_nth2; rewrite firstn_length; [|lia]. f_equal. lia.
Qed.
Lemma d_ln_pos : forall f t a, 0 < f t -> derivable_pt_lim f t a -> derivable_pt_lim (fun z => ln (f z)) t (a / f t).
Proof. intros f t a P H. apply (d_val _ _ (/ f t * a)); [unfold Rdiv; ring|]. apply (d_comp f ln); [exact H|]. apply derivable_pt_lim_ln, P. Qed.
Section Gradient.
  Context (x : arr3 ef) (q b : nat -> R).
  Definition wt (i : nat) : R := / (sse x q b i / scount x i + eps).
  Definition set_at (f : nat -> R) (k : nat) (t : R) (j : nat) : R := if Nat.eqb j k then t else f j.
  Lemma set_at_self : forall f k j, set_at f k (f k) j = f j.
  Proof. intros. unfold set_at. destruct (Nat.eqb_spec j k) as [->|]; reflexivity. Qed.
  Lemma sse_self : forall k i, sse x (set_at q k (q k)) b i = sse x q b i.
  Proof. intros. apply ssum_ext. intros. rewrite set_at_self. reflexivity. Qed.
  Lemma d_ssum : forall i (F : R -> nat -> R -> R) D t, (forall e v, derivable_pt_lim (fun z => F z e v) t (D e v)) -> derivable_pt_lim (fun z => ssum x i (F z)) t (ssum x i D).
  Proof.
    intros i F D t H. unfold ssum. apply (d_Rsum nat _ (fun e z => Rsum (map (fun r => vote_term (F z e) (at3 x e i r)) (seq 0 (dR x))))). intros e _.
    apply (d_Rsum nat _ (fun r z => vote_term (F z e) (at3 x e i r))). intros r _. destruct (at3 x e i r); cbn [vote_term]; try apply d_const. apply H.
  Qed.
  Lemma d_term : forall i (f : R -> R) t d, 0 < f t / scount x i + eps -> derivable_pt_lim f t d -> (scount x i = 0 -> d = 0) ->
    derivable_pt_lim (fun z => scount x i * ln (f z / scount x i + eps)) t (/ (f t / scount x i + eps) * d).
  Proof.
    intros i f t d P H Z. destruct (Req_dec (scount x i) 0) as [E|N].
    - apply (d_val _ _ 0); [rewrite (Z E); ring|]. apply (d_ext (fun _ => 0)); [intro; rewrite E; ring|apply d_const].
    - apply (d_val _ _ (0 * ln (f t / scount x i + eps) + scount x i * ((d / scount x i + 0) / (f t / scount x i + eps)))).
      { set (a := f t / scount x i + eps) in *. assert (a <> 0) by lra. field. split; assumption. }
      apply (d_mul (fun _ => scount x i) (fun z => ln (f z / scount x i + eps))); [apply d_const|]. apply (d_ln_pos (fun z => f z / scount x i + eps)); [exact P|].
      apply (d_add (fun z => f z / scount x i) (fun _ => eps)); [|apply d_const].
      apply (d_val _ _ (d * / scount x i + f t * 0)); [unfold Rdiv; ring|]. apply (d_mul f (fun _ => / scount x i)); [exact H|apply d_const].
  Qed.
  (** Derivative in a score. *)
  Lemma grad_q : forall k, (k < dE x)%nat -> derivable_pt_lim (fun t => mis x (set_at q k t) b) (q k) (-2 * vsum x k (fun i v => wt i * (v - q k - b i))).
  Proof.
    intros k Hk. apply (d_val _ _ (Rsum (map (fun i => wt i * ssum x i (fun e v => if Nat.eqb e k then -2 * (v - q k - b i) else 0)) (seq 0 (dS x))))).
    { rewrite (Rsum_map_ext _ _ (fun i => ssum x i (fun e v => if Nat.eqb e k then -2 * (wt i * (v - q k - b i)) else 0))).
      2:{ intros i _. rewrite <- ssum_mul. apply ssum_ext. intros e r v _ _ _. destruct (Nat.eqb e k); ring. }
      rewrite (sum_exchange x (fun e i v => if Nat.eqb e k then -2 * (wt i * (v - q k - b i)) else 0)).
      rewrite <- vsum_mul. rewrite (Rsum_map_ext _ _ (fun e => if Nat.eqb e k then vsum x k (fun i v => -2 * (wt i * (v - q k - b i))) else 0)).
      2:{ intros e _. destruct (Nat.eqb_spec e k) as [->|]; [reflexivity|]. apply vsum_0. reflexivity. }
      assert (A : forall n st c, Rsum (map (fun e => if Nat.eqb e k then c else 0) (seq st n)) = if andb (Nat.leb st k) (Nat.ltb k (st + n)) then c else 0).
      { induction n as [|n IH]; intros st c.
        - cbn [seq map]. change (Rsum []) with 0. destruct (Nat.leb_spec st k), (Nat.ltb_spec k (st + 0)); cbn [andb]; try reflexivity. lia.
        - cbn [seq map]. rewrite Rsum_cons, IH. destruct (Nat.eqb_spec st k), (Nat.leb_spec (S st) k), (Nat.leb_spec st k), (Nat.ltb_spec k (S st + n)), (Nat.ltb_spec k (st + S n)); cbn [andb]; try lia; ring. }
      rewrite A. destruct (Nat.leb_spec 0 k), (Nat.ltb_spec k (0 + dE x)); cbn [andb]; try lia. reflexivity. }
    unfold mis. apply (d_Rsum nat _ (fun i t => scount x i * ln (sse x (set_at q k t) b i / scount x i + eps))). intros i _.
    unfold wt. rewrite <- (sse_self k i). apply (d_term i (fun t => sse x (set_at q k t) b i)).
    - apply arg_pos.
    - unfold sse. apply d_ssum. intros e v. unfold set_at. destruct (Nat.eqb e k); [|apply d_const].
      apply (d_val _ _ ((0 - 1 - 0) * (v - q k - b i) + (v - q k - b i) * (0 - 1 - 0))); [ring|].
      assert (L : derivable_pt_lim (fun z => v - z - b i) (q k) (0 - 1 - 0)) by (apply (d_sub (fun z => v - z) (fun _ => b i)); [apply (d_sub (fun _ => v) (fun z => z)); [apply d_const|apply d_id]|apply d_const]).
      apply (d_mul (fun z => v - z - b i) (fun z => v - z - b i)); exact L.
    - intros Z. apply idle_ssum, Z.
  Qed.
  (** Derivative in a bias. *)
  Lemma sse_other : forall k t i, i <> k -> sse x q (set_at b k t) i = sse x q b i.
  Proof. intros k t i N. apply ssum_ext. intros. unfold set_at. destruct (Nat.eqb_spec i k); [contradiction|reflexivity]. Qed.
  Lemma grad_b : forall k, (k < dS x)%nat -> derivable_pt_lim (fun t => mis x q (set_at b k t)) (b k) (-2 * (wt k * ssum x k (fun e v => v - q e - b k))).
  Proof.
    intros k Hk. apply (d_val _ _ (Rsum (map (fun i => if Nat.eqb i k then -2 * (wt k * ssum x k (fun e v => v - q e - b k)) else 0) (seq 0 (dS x))))).
    { assert (A : forall n st c, Rsum (map (fun e => if Nat.eqb e k then c else 0) (seq st n)) = if andb (Nat.leb st k) (Nat.ltb k (st + n)) then c else 0).
      { induction n as [|n IH]; intros st c.
        - cbn [seq map]. change (Rsum []) with 0. destruct (Nat.leb_spec st k), (Nat.ltb_spec k (st + 0)); cbn [andb]; try reflexivity. lia.
        - cbn [seq map]. rewrite Rsum_cons, IH. destruct (Nat.eqb_spec st k), (Nat.leb_spec (S st) k), (Nat.leb_spec st k), (Nat.ltb_spec k (S st + n)), (Nat.ltb_spec k (st + S n)); cbn [andb]; try lia; ring. }
      rewrite A. destruct (Nat.leb_spec 0 k), (Nat.ltb_spec k (0 + dS x)); cbn [andb]; try lia. reflexivity. }
    unfold mis. apply (d_Rsum nat _ (fun i t => scount x i * ln (sse x q (set_at b k t) i / scount x i + eps))). intros i _. destruct (Nat.eqb_spec i k) as [->|N].
    - apply (d_val _ _ (wt k * (-2 * ssum x k (fun e v => v - q e - b k)))); [ring|]. 
      assert (S : sse x q (set_at b k (b k)) k = sse x q b k) by (apply ssum_ext; intros; rewrite set_at_self; reflexivity).
      unfold wt. rewrite <- S. apply (d_term k (fun t => sse x q (set_at b k t) k)); [apply arg_pos| |intros Z; rewrite idle_ssum by exact Z; ring].
      rewrite <- ssum_mul. unfold sse. apply d_ssum. intros e v. unfold set_at. rewrite Nat.eqb_refl.
      apply (d_val _ _ ((0 - 1) * (v - q e - b k) + (v - q e - b k) * (0 - 1))); [ring|].
      assert (L : derivable_pt_lim (fun z => v - q e - z) (b k) (0 - 1)) by (apply (d_sub (fun _ => v - q e) (fun z => z)); [apply d_const|apply d_id]).
      apply (d_mul (fun z => v - q e - z) (fun z => v - q e - z)); exact L.
    - apply (d_ext (fun _ => scount x i * ln (sse x q b i / scount x i + eps))); [intro; rewrite sse_other by exact N; reflexivity|apply d_const].
  Qed.
End Gradient.

Section Stationary.
  Context (x : arr3 ef) (HF : finite_votes x) (HR : all_rated x) (HV : all_voted x) (q b : nat -> R).
  Let s := map (fun e => Fin (q e)) (seq 0 (dE x)).
  Let bl := map (fun i => Fin (b i)) (seq 0 (dS x)).
  Let p' := Est q (mean_diff x q).
  Lemma s_q : s = qlist x p'. Proof. reflexivity. Qed.
  Lemma count_ne : forall i, (i < dS x)%nat -> scount x i <> 0.
  Proof. intros i Hi. assert (H := voted_count x i (HV i Hi)). lra. Qed.
  Lemma bl_b : (forall i, (i < dS x)%nat -> b i = mean_diff x q i) <-> bl = blist x p'.
  Proof.
    unfold bl, blist. split.
    - intros H. apply map_ext_in. intros i Hi. apply in_seq in Hi. rewrite nan_if0_ne by (apply count_ne; lia). rewrite H by lia. reflexivity.
    - intros H i Hi. assert (E := f_equal (fun l => value l i) H). cbv beta in E. rewrite !value_map in E by exact Hi. rewrite nan_if0_ne in E by (apply count_ne, Hi). exact E.
  Qed.
  Lemma slope_q : forall k, (k < dE x)%nat -> derivable_pt_lim (fun t => misfit x (with_value s k t) bl) (q k) (-2 * vsum x k (fun i v => wt x q b i * (v - q k - b i))).
  Proof.
    intros k Hk. apply (d_ext (fun t => mis x (set_at q k t) b)); [|apply grad_q, Hk]. intros t. symmetry. apply misfit_mis.
    - intros e He. rewrite with_value_at by (unfold s; rewrite map_length, seq_length; exact Hk). unfold s. rewrite value_map by exact He. reflexivity.
    - intros i Hi _. unfold bl. rewrite value_map by exact Hi. reflexivity.
  Qed.
  Lemma slope_b : forall k, (k < dS x)%nat -> derivable_pt_lim (fun t => misfit x s (with_value bl k t)) (b k) (-2 * (wt x q b k * ssum x k (fun e v => v - q e - b k))).
  Proof.
    intros k Hk. apply (d_ext (fun t => mis x q (set_at b k t))); [|apply grad_b, Hk]. intros t. symmetry. apply misfit_mis.
    - intros e He. unfold s. rewrite value_map by exact He. reflexivity.
    - intros i Hi _. rewrite with_value_at by (unfold bl; rewrite map_length, seq_length; exact Hk). unfold bl. rewrite value_map by exact Hi. reflexivity.
  Qed.
  Lemma flat_b : forall k, (k < dS x)%nat -> -2 * (wt x q b k * ssum x k (fun e v => v - q e - b k)) = 0 <-> b k = mean_diff x q k.
  Proof.
    intros k Hk. assert (N := count_ne k Hk). assert (P : 0 < wt x q b k) by (apply Rinv_0_lt_compat, arg_pos).
    rewrite (ssum_sub _ _ (fun e v => v - q e)), ssum_const. unfold mean_diff. split.
    - intros H. assert (K : ssum x k (fun e v => v - q e) - b k * scount x k = 0) by (apply (Rmult_eq_reg_l (wt x q b k)); lra). apply (Rmult_eq_reg_r (scount x k)); [|exact N]. unfold Rdiv. rewrite Rmult_assoc, Rinv_l by exact N. lra.
    - intros ->. unfold Rdiv. rewrite Rmult_assoc, Rinv_l by exact N. ring.
  Qed.
  Lemma flat_q : (forall i, (i < dS x)%nat -> b i = mean_diff x q i) -> forall k, (k < dE x)%nat -> -2 * vsum x k (fun i v => wt x q b i * (v - q k - b i)) = 0 <-> debiased_mean x p' k = q k.
  Proof.
    intros HB k Hk. assert (P : 0 < vsum x k (fun i _ => weight x p' i)) by (apply rated_pos; [apply HR, Hk|intros; apply weight_pos]).
    assert (E : vsum x k (fun i v => wt x q b i * (v - q k - b i)) = vsum x k (fun i v => weight x p' i * (v - eb_ p' i)) - q k * vsum x k (fun i _ => weight x p' i)).
    { rewrite <- vsum_mul, <- vsum_sub. apply vsum_ext. intros i r v Hi _ _. rewrite weight_sse. unfold wt. replace (sse x q b i) with (sse x (eq_ p') (eb_ p') i); [cbn [eq_ eb_ p']; rewrite (HB i Hi); ring|].
      apply ssum_ext. intros. cbn [eq_ eb_ p']. rewrite (HB i Hi). reflexivity. }
    rewrite E. unfold debiased_mean. split.
    - intros H. apply (Rmult_eq_reg_r (vsum x k (fun i _ => weight x p' i))); [|lra]. unfold Rdiv. rewrite Rmult_assoc, Rinv_l by lra. lra.
    - intros H. rewrite <- H. unfold Rdiv. rewrite Rmult_assoc, Rinv_l by lra. ring.
  Qed.
  Lemma c122 : (exists e', ap_pass x s bl = Ok e' /\ es e' = s /\ eb e' = bl) <->
    (forall k, (k < dE x)%nat -> derivable_pt_lim (fun t => misfit x (with_value s k t) bl) (q k) 0) /\
    (forall k, (k < dS x)%nat -> derivable_pt_lim (fun t => misfit x s (with_value bl k t)) (b k) 0).
  Proof.
    assert (C : consistent x p') by (intro; reflexivity). split.
    - intros (e' & E & Es & Eb).
      assert (HB : forall i, (i < dS x)%nat -> b i = mean_diff x q i).
      { apply bl_b. rewrite <- Eb. unfold ap_pass in E. cbn [weighed_nanmean_2d bind] in E. apply StepsProofs.Ok_inj in E. rewrite <- E in Es |- *. cbn [es eb] in Es |- *. rewrite Es, s_q, bias_of_spec by exact HF. reflexivity. }
      assert (Hbl := proj1 bl_b HB). rewrite Hbl, s_q in E. rewrite pass_spec in E by assumption. apply StepsProofs.Ok_inj in E. subst e'. cbn [es eb] in Es, Eb. split.
      + intros k Hk. apply (d_val _ _ _ _ (proj2 (flat_q HB k Hk) ltac:(assert (V := f_equal (fun l => value l k) Es); cbv beta in V; rewrite value_q in V by exact Hk; unfold s in V; rewrite value_map in V by exact Hk; exact V))).
        apply slope_q, Hk.
      + intros k Hk. apply (d_val _ _ _ _ (proj2 (flat_b k Hk) (HB k Hk))). apply slope_b, Hk.
    - intros [Hq Hb].
      assert (HB : forall i, (i < dS x)%nat -> b i = mean_diff x q i).
      { intros i Hi. apply (flat_b i Hi). exact (uniqueness_limite _ _ _ _ (slope_b i Hi) (Hb i Hi)). }
      assert (Hbl := proj1 bl_b HB). assert (Q : forall k, (k < dE x)%nat -> debiased_mean x p' k = q k).
      { intros k Hk. apply (flat_q HB k Hk). exact (uniqueness_limite _ _ _ _ (slope_q k Hk) (Hq k Hk)). }
      exists (ApEst (qlist x (next x p')) (blist x (next x p')) (vlist x p') (vjlist x p')). split; [rewrite Hbl, s_q; apply pass_spec; assumption|]. cbn [es eb]. split.
      + rewrite s_q. unfold qlist. apply map_ext_in. intros e He. apply in_seq in He. f_equal. cbn [next eq_]. rewrite Q by lia. reflexivity.
      + rewrite Hbl. unfold blist. apply map_ext. intros i. f_equal. cbn [next eb_ p']. unfold mean_diff. f_equal. apply ssum_ext. intros e r v He _ _. rewrite Q by exact He. reflexivity.
  Qed.
End Stationary.
