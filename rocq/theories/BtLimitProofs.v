(** Proofs about the limit of the Bradley-Terry passes (C123-C125). *)
From Coq Require Import List ZArith Bool Arith Reals Lia Lra Classical.
From Verif Require Import PyBase Num ExtReal ExtRealProofs NumPy ArrayProofs SpecMos PairedComp SpecBt BtProofs Bt2Proofs SpecBtLimit.
Import ListNotations.
Local Open Scope list_scope.
Local Open Scope R_scope.

(** ** Sums *)
Lemma total_eq_elim : forall m f g, (forall i, (i < m)%nat -> f i <= g i) -> total m f = total m g -> forall i, (i < m)%nat -> f i = g i.
Proof.
  intros m f g H E i Hi. destruct (Req_dec (f i) (g i)) as [|N]; [assumption|exfalso].
  assert (P : 0 < total m (fun k => g k - f k)).
  { apply (total_pos m _ i Hi); [intros k Hk; generalize (H k Hk); lra|generalize (H i Hi); lra]. }
  rewrite total_sub in P. lra.
Qed.
Lemma total_ge_one : forall m f i, (i < m)%nat -> (forall k, (k < m)%nat -> f k <= 0) -> total m f <= f i.
Proof.
  intros m f i Hi H. assert (P : 0 <= total m (fun k => (if Nat.eqb k i then 1 else 0) * f k - f k)).
  { apply total_nonneg. intros k Hk. generalize (H k Hk). destruct (Nat.eqb k i); lra. }
  rewrite total_sub, total_delta in P by exact Hi. lra.
Qed.
Lemma total_const_le : forall m f c, (forall i, (i < m)%nat -> f i <= c) -> total m f <= INR m * c.
Proof.
  induction m as [|m IH]; intros f c H.
  - unfold total, Rsum. cbn. lra.
  - rewrite total_S, S_INR. generalize (IH f c (fun i Hi => H i ltac:(lia))) (H m ltac:(lia)). lra.
Qed.

(** ** Logarithms *)
Lemma ln_sqrt_bound : forall x, 0 < x -> ln x <= x - 1 - (sqrt x - 1) * (sqrt x - 1).
Proof.
  intros x Hx. assert (P := sqrt_lt_R0 x Hx). assert (S := sqrt_sqrt x ltac:(lra)).
  assert (L : ln x = 2 * ln (sqrt x)). { rewrite <- S at 1. rewrite ln_mult by assumption. ring. }
  generalize (ln_le (sqrt x) P). rewrite L. nra.
Qed.
Lemma ln_mix : forall a b u v, 0 < a -> 0 < b -> 0 < u -> 0 < v -> u + v = 1 -> u * ln a + v * ln b <= ln (u * a + v * b).
Proof.
  intros a b u v Ha Hb Hu Hv E. set (s := u * a + v * b).
  assert (Hs : 0 < s) by (unfold s; generalize (Rmult_lt_0_compat u a Hu Ha) (Rmult_lt_0_compat v b Hv Hb); lra).
  assert (A := ln_le (a / s) ltac:(apply Rdiv_lt_0_compat; assumption)). assert (B := ln_le (b / s) ltac:(apply Rdiv_lt_0_compat; assumption)).
  rewrite ln_div in A, B by assumption.
  assert (Z : u * (a / s - 1) + v * (b / s - 1) = 0).
  { replace (u * (a / s - 1) + v * (b / s - 1)) with (s / s - (u + v)) by (unfold s; field; fold s; lra). rewrite E. field. lra. }
  assert (A' := Rmult_le_compat_l u _ _ ltac:(lra) A). assert (B' := Rmult_le_compat_l v _ _ ltac:(lra) B).
  replace (ln s) with (u * ln s + v * ln s) by (rewrite <- Rmult_plus_distr_r, E; ring). lra.
Qed.

(** ** Balanced strengths are most likely *)
Definition balanced (m : nat) (w : nat -> nat -> R) (p : nat -> R) : Prop := forall i, (i < m)%nat -> wins m w i = expected m w p i.

Lemma likelihood_diff : forall m w p q, total m (fun i => total m (fun j => w i j * (ln (beats q i j) - ln (beats p i j)))) = bt_likelihood m w q - bt_likelihood m w p.
Proof.
  intros. unfold bt_likelihood. rewrite <- total_sub. apply total_ext. intros i _. rewrite <- total_sub. apply total_ext. intros. ring.
Qed.
Lemma balanced_max : forall m w p q, nonneg_counts m w -> positive m p -> positive m q -> balanced m w p -> bt_likelihood m w q <= bt_likelihood m w p.
Proof.
  intros m w p q Hw Hp Hq Hb. set (d := fun i => ln (q i / p i)).
  assert (B : total m (fun i => total m (fun j => w i j * (ln (beats q i j) - ln (beats p i j))))
    <= total m (fun i => total m (fun j => w i j * (d i - (beats p i j * d i + beats p j i * d j))))).
  { apply total_le. intros i Hi. apply total_le. intros j Hj. apply Rmult_le_compat_l; [apply Hw; assumption|].
    generalize (Hp i Hi) (Hp j Hj) (Hq i Hi) (Hq j Hj). intros. unfold d.
    assert (M := ln_mix (q i / p i) (q j / p j) (beats p i j) (beats p j i)
      ltac:(apply Rdiv_lt_0_compat; lra) ltac:(apply Rdiv_lt_0_compat; lra) ltac:(unfold beats; apply Rdiv_lt_0_compat; lra) ltac:(unfold beats; apply Rdiv_lt_0_compat; lra)
      ltac:(unfold beats; field; lra)).
    replace (beats p i j * (q i / p i) + beats p j i * (q j / p j)) with ((q i + q j) / (p i + p j)) in M by (unfold beats; field; lra).
    assert (A : ln (beats q i j) - ln (beats p i j) = ln (q i / p i) - ln ((q i + q j) / (p i + p j))).
    { unfold beats. rewrite !ln_div by lra. ring. }
    lra. }
  rewrite likelihood_diff in B.
  assert (Z : total m (fun i => total m (fun j => w i j * (d i - (beats p i j * d i + beats p j i * d j)))) = 0).
  { rewrite (total_ext m _ (fun i => wins m w i * d i - total m (fun j => w i j * ((fun a b => beats p a b * d a) i j + (fun a b => beats p a b * d a) j i)))).
    - rewrite total_sub. rewrite <- (total_games m w (fun a b => beats p a b * d a)). rewrite <- total_sub.
      rewrite (total_ext m _ (fun _ => 0 * 0)); [rewrite total_mul; ring|].
      intros i Hi. rewrite (Hb i Hi). unfold expected. rewrite <- total_mulr, <- total_sub. 
      rewrite (total_ext m _ (fun _ => 0 * 0)); [rewrite total_mul; ring|]. intros; ring.
    - intros i Hi. unfold wins. rewrite <- total_mulr, <- total_sub. apply total_ext. intros. ring. }
  rewrite Z in B. lra.
Qed.

(** ** Gain of a pass *)
Definition load (m : nat) (w : nat -> nat -> R) (p : nat -> R) (i : nat) : R := expected m w p i / wins m w i.
Definition gap (m : nat) (w : nat -> nat -> R) (p : nat -> R) : R :=
  total m (fun i => wins m w i * ((sqrt (load m w p i) - 1) * (sqrt (load m w p i) - 1))).
Lemma load_raw : forall m w p i, nonneg_counts m w -> each_won m w -> positive m p -> (i < m)%nat -> load m w p i = p i / raw m w p i.
Proof.
  intros m w p i Hw He Hp Hi. unfold load, raw. rewrite expected_rate. assert (R0 := rate_pos m w p i Hw He Hp Hi).
  assert (W0 := He i Hi). field. lra.
Qed.
Lemma load_pos : forall m w p i, nonneg_counts m w -> each_won m w -> positive m p -> (i < m)%nat -> 0 < load m w p i.
Proof. intros. rewrite load_raw by assumption. apply Rdiv_lt_0_compat; [auto|apply raw_pos; assumption]. Qed.
Lemma gap_nonneg : forall m w p, each_won m w -> 0 <= gap m w p.
Proof. intros m w p He. apply total_nonneg. intros i Hi. apply Rmult_le_pos; [left; apply He, Hi|apply Rle_0_sqr]. Qed.

Lemma raw_gain : forall m w p, nonneg_counts m w -> each_won m w -> positive m p ->
  bt_likelihood m w p + gap m w p <= bt_likelihood m w (raw m w p).
Proof.
  intros m w p Hw He Hp. assert (Hq := raw_pos m w p Hw He Hp). 
  assert (D : forall i, (i < m)%nat -> raw m w p i * rate m w p i = wins m w i).
  { intros i Hi. unfold raw. field. apply Rgt_not_eq, rate_pos; assumption. }
  assert (G : gap m w p = total m (fun i => total m (fun j => w i j * ((sqrt (p i / raw m w p i) - 1) * (sqrt (p i / raw m w p i) - 1))))).
  { unfold gap. apply total_ext. intros i Hi. rewrite load_raw by assumption. rewrite total_mulr. reflexivity. }
  rewrite G. set (q := raw m w p) in *. 
  assert (B : total m (fun i => total m (fun j => w i j * ((sqrt (p i / q i) - 1) * (sqrt (p i / q i) - 1) + (1 - p i / q i + 1 - (q i + q j) / (p i + p j)))))
              <= total m (fun i => total m (fun j => w i j * (ln (beats q i j) - ln (beats p i j))))).
  { apply total_le. intros i Hi. apply total_le. intros j Hj. apply Rmult_le_compat_l; [apply Hw; assumption|].
    generalize (Hp i Hi) (Hp j Hj) (Hq i Hi) (Hq j Hj). intros. unfold beats.
    assert (A : ln (q i / (q i + q j)) - ln (p i / (p i + p j)) = - ln (p i / q i) - ln ((q i + q j) / (p i + p j))).
    { rewrite !ln_div by lra. ring. }
    rewrite A. assert (A1 := ln_sqrt_bound (p i / q i) ltac:(apply Rdiv_lt_0_compat; lra)).
    assert (A2 := ln_le ((q i + q j) / (p i + p j)) ltac:(apply Rdiv_lt_0_compat; lra)). lra. }
  assert (Z : total m (fun i => total m (fun j => w i j * (1 - p i / q i + 1 - (q i + q j) / (p i + p j)))) = 0).
  { assert (X1 : forall i, (i < m)%nat -> total m (fun j => w i j * (1 - p i / q i + 1 - (q i + q j) / (p i + p j)))
       = (2 * wins m w i - expected m w p i) - total m (fun j => w i j * ((fun a b => q a / (p a + p b)) i j + (fun a b => q a / (p a + p b)) j i))).
    { intros i Hi. rewrite expected_rate.
      unfold wins at 1. rewrite <- total_mul.
      assert (Ei : p i * rate m w p i = total m (fun j => w i j * (p i / q i))).
      { rewrite total_mulr. fold (wins m w i). rewrite <- (D i Hi). field. apply Rgt_not_eq, Hq, Hi. }
      rewrite Ei, <- !total_sub. apply total_ext. intros j Hj. generalize (Hp i Hi) (Hp j Hj) (Hq i Hi). intros. field. lra. }
    rewrite (total_ext m _ _ X1), total_sub, total_sub, total_mul, total_expected by exact Hp.
    rewrite <- (total_games m w (fun a b => q a / (p a + p b))).
    assert (X2 : total m (fun i => total m (fun j => games w i j * (q i / (p i + p j)))) = total m (wins m w)).
    { apply total_ext. intros i Hi. rewrite <- (D i Hi). unfold rate. rewrite <- total_mul. apply total_ext. intros. unfold Rdiv. ring. }
    rewrite X2. ring. }
  rewrite likelihood_diff in B.
  rewrite (total_ext m _ (fun i => total m (fun j => w i j * ((sqrt (p i / q i) - 1) * (sqrt (p i / q i) - 1))) + total m (fun j => w i j * (1 - p i / q i + 1 - (q i + q j) / (p i + p j))))) in B
    by (intros i Hi; rewrite <- total_add; apply total_ext; intros; ring).
  rewrite total_add, Z in B. lra.
Qed.
Lemma likelihood_norm : forall m w p, (0 < m)%nat -> nonneg_counts m w -> each_won m w -> positive m p -> bt_likelihood m w (step m w p) = bt_likelihood m w (raw m w p).
Proof.
  intros m w p Hm Hw He Hp. assert (R := raw_pos m w p Hw He Hp). assert (T := total_all_pos m (raw m w p) Hm R).
  rewrite <- (likelihood_scale m w (raw m w p) (/ total m (raw m w p))); [|exact R|apply Rinv_0_lt_compat, T].
  apply likelihood_ext. intros i j _ _. unfold beats, step, Rdiv. rewrite !(Rmult_comm (/ total m (raw m w p))). reflexivity.
Qed.
Lemma step_gain : forall m w p, (0 < m)%nat -> nonneg_counts m w -> each_won m w -> positive m p ->
  bt_likelihood m w p + gap m w p <= bt_likelihood m w (step m w p).
Proof. intros. rewrite likelihood_norm by assumption. apply raw_gain; assumption. Qed.
Lemma likelihood_terms : forall m w p i j, nonneg_counts m w -> positive m p -> (i < m)%nat -> (j < m)%nat -> w i j * ln (beats p i j) <= 0.
Proof.
  intros m w p i j Hw Hp Hi Hj. assert (L : ln (beats p i j) <= 0).
  { rewrite <- ln_1. assert (P := beats_pos m p i j Hp Hi Hj). assert (beats p i j <= 1).
    { unfold beats. generalize (Hp i Hi) (Hp j Hj). intros. apply Rmult_le_reg_r with (p i + p j); [lra|].
      unfold Rdiv. rewrite Rmult_assoc, Rinv_l by lra. lra. }
    destruct (Req_dec (beats p i j) 1) as [->|N]; [lra|]. left. apply ln_increasing; lra. }
  generalize (Hw i j Hi Hj). nra.
Qed.
Lemma likelihood_rows : forall m w p i, nonneg_counts m w -> positive m p -> (i < m)%nat -> total m (fun j => w i j * ln (beats p i j)) <= 0.
Proof.
  intros m w p i Hw Hp Hi. generalize (total_const_le m (fun j => w i j * ln (beats p i j)) 0 ltac:(intros; apply likelihood_terms with m; assumption)). lra.
Qed.
Lemma likelihood_nonpos : forall m w p, nonneg_counts m w -> positive m p -> bt_likelihood m w p <= 0.
Proof.
  intros m w p Hw Hp. generalize (total_const_le m (fun i => total m (fun j => w i j * ln (beats p i j))) 0 ltac:(intros; apply likelihood_rows; assumption)).
  unfold bt_likelihood. lra.
Qed.
Lemma likelihood_term : forall m w p i j, nonneg_counts m w -> positive m p -> (i < m)%nat -> (j < m)%nat -> bt_likelihood m w p <= w i j * ln (beats p i j).
Proof.
  intros m w p i j Hw Hp Hi Hj. unfold bt_likelihood.
  eapply Rle_trans; [apply (total_ge_one m _ i Hi); intros; apply likelihood_rows; assumption|].
  apply (total_ge_one m (fun j => w i j * ln (beats p i j)) j Hj). intros. apply likelihood_terms with m; assumption.
Qed.

(** A fixed point is most likely and the other way round. *)
Lemma gap_balanced : forall m w p, nonneg_counts m w -> each_won m w -> positive m p -> gap m w p <= 0 -> balanced m w p.
Proof.
  intros m w p Hw He Hp H i Hi. assert (W0 := He i Hi).
  assert (T : forall k, (k < m)%nat -> wins m w k * ((sqrt (load m w p k) - 1) * (sqrt (load m w p k) - 1)) = 0).
  { intros k Hk. symmetry. apply (total_eq_elim m (fun _ => 0) (fun k => wins m w k * ((sqrt (load m w p k) - 1) * (sqrt (load m w p k) - 1))));
      [|rewrite (total_ext m (fun _ => 0) (fun _ => 0 * 0)), total_mul by (intros; ring)|exact Hk].
    - intros l Hl. apply Rmult_le_pos; [left; apply He, Hl|apply Rle_0_sqr].
    - generalize (gap_nonneg m w p He). unfold gap in *. lra. }
  assert (S : sqrt (load m w p i) = 1). { destruct (Rmult_integral _ _ (T i Hi)) as [E|E]; [lra|]. apply Rsqr_0_uniq in E. lra. }
  assert (L0 := load_pos m w p i Hw He Hp Hi). assert (L : load m w p i = 1) by (rewrite <- (sqrt_sqrt (load m w p i)) by lra; rewrite S; ring).
  unfold load in L. apply Rmult_eq_reg_r with (/ wins m w i); [|apply Rinv_neq_0_compat; lra]. unfold Rdiv in L. rewrite L. apply Rinv_r. lra.
Qed.
Lemma fixed_iff : forall a m w p, (0 < m)%nat -> counts a m w -> nonneg_counts m w -> each_won m w -> probabilities m p ->
  (bt_step a (vec m p) = vec m p <-> balanced m w p).
Proof. intros a m w p Hm Ha Hw He Hp. exact (proj1 (c49_fixed a m w p Hm Ha Hw He Hp)). Qed.
Lemma c123_maximum : forall a m w p, (0 < m)%nat -> counts a m w -> nonneg_counts m w -> each_won m w -> probabilities m p ->
  (bt_step a (vec m p) = vec m p <-> most_likely m w p).
Proof.
  intros a m w p Hm Ha Hw He Hp. assert (P := proj1 Hp). rewrite (fixed_iff a m w p Hm Ha Hw He Hp). split.
  - intros B. split; [exact P|]. intros q Hq. apply balanced_max; assumption.
  - intros [_ M]. apply gap_balanced; try assumption.
    generalize (step_gain m w p Hm Hw He P) (M (step m w p) (proj1 (step_prob m w p Hm Hw He P))). lra.
Qed.

(** ** Uniqueness *)
Lemma argmax : forall m f, (0 < m)%nat -> exists i, (i < m)%nat /\ forall j, (j < m)%nat -> f j <= f i.
Proof.
  induction m as [|m IH]; intros f H; [lia|]. destruct m as [|m].
  - exists 0%nat. split; [lia|]. intros j Hj. replace j with 0%nat by lia. lra.
  - destruct (IH f ltac:(lia)) as (i & Hi & M). destruct (Rle_dec (f (S m)) (f i)) as [L|L].
    + exists i. split; [lia|]. intros j Hj. destruct (Nat.eq_dec j (S m)) as [->|]; [exact L|apply M; lia].
    + exists (S m). split; [lia|]. intros j Hj. destruct (Nat.eq_dec j (S m)) as [->|]; [lra|]. generalize (M j ltac:(lia)). lra.
Qed.
Lemma games_nonneg : forall m w, nonneg_counts m w -> nonneg_counts m (games w).
Proof. intros m w H i j Hi Hj. unfold games. generalize (H i j Hi Hj) (H j i Hj Hi). lra. Qed.
Lemma above_range : forall m w i j, above m w i j -> (i < m)%nat /\ (j < m)%nat.
Proof. intros m w i j H. induction H; [auto|]. split; [assumption|apply IHabove]. Qed.
Lemma spread : forall m w (S : nat -> Prop), (forall i j, (i < m)%nat -> (j < m)%nat -> S i -> 0 < w i j -> S j) ->
  forall i j, above m w i j -> S i -> S j.
Proof.
  intros m w S H i j A. induction A as [|i k j Hi Hk A IH]; [auto|]. intros Si. apply IH. apply (H i k); try assumption. apply (above_range _ _ _ _ A).
Qed.
Lemma balanced_unique : forall m w p q, (0 < m)%nat -> nonneg_counts m w -> connected m w -> probabilities m p -> probabilities m q ->
  balanced m w p -> balanced m w q -> forall i, (i < m)%nat -> p i = q i.
Proof.
  intros m w p q Hm Hw Hc [Hp Sp] [Hq Sq] Bp Bq.
  destruct (argmax m (fun i => q i / p i) Hm) as (i0 & Hi0 & M). set (r := q i0 / p i0) in *.
  assert (Hr : 0 < r) by (apply Rdiv_lt_0_compat; auto).
  assert (Q : forall j, (j < m)%nat -> q j <= r * p j).
  { intros j Hj. generalize (M j Hj) (Hp j Hj). intros A B. apply Rmult_le_reg_r with (/ p j); [apply Rinv_0_lt_compat, B|].
    rewrite Rmult_assoc, Rinv_r by lra. unfold Rdiv in A. lra. }
  assert (E : forall j, (j < m)%nat -> q j = r * p j).
  { intros j Hj. apply (spread m (games w) (fun j => q j = r * p j)) with i0; [|apply Hc; assumption|unfold r; field; apply Rgt_not_eq, Hp, Hi0].
    clear j Hj. intros i j Hi Hj Ei G. generalize (Hp i Hi) (Hp j Hj) (Hq j Hj). intros Pi Pj Qj.
    assert (C : games w i j * beats p i j = games w i j * beats q i j).
    { apply (total_eq_elim m (fun j => games w i j * beats p i j) (fun j => games w i j * beats q i j)); [| |exact Hj].
      - intros k Hk. apply Rmult_le_compat_l; [apply (games_nonneg m w Hw); assumption|]. unfold beats. rewrite Ei.
        generalize (Hp k Hk) (Hq k Hk) (Q k Hk). intros Pk Qk Lk. assert (0 < r * p i) by (apply Rmult_lt_0_compat; assumption).
        replace (p i / (p i + p k)) with (r * p i / (r * p i + r * p k)) by (field; split; [lra|nra]).
        apply Rmult_le_compat_l; [lra|]. apply Rinv_le_contravar; lra.
      - fold (expected m w p i) (expected m w q i). rewrite <- (Bp i Hi), <- (Bq i Hi). reflexivity. }
    apply Rmult_eq_reg_l in C; [|lra]. unfold beats in C. rewrite Ei in C. assert (0 < r * p i) by (apply Rmult_lt_0_compat; assumption).
    assert (C' : p i * (r * p i + q j) = r * p i * (p i + p j)).
    { apply (f_equal (fun x => x * ((p i + p j) * (r * p i + q j)))) in C.
      replace (p i / (p i + p j) * ((p i + p j) * (r * p i + q j))) with (p i * (r * p i + q j)) in C by (field; lra).
      replace (r * p i / (r * p i + q j) * ((p i + p j) * (r * p i + q j))) with (r * p i * (p i + p j)) in C by (field; lra). exact C. }
    apply Rmult_eq_reg_l with (p i); lra. }
  assert (R1 : r = 1).
  { rewrite (total_ext m q (fun j => r * p j) E), total_mul, Sp in Sq. lra. }
  intros i Hi. rewrite (E i Hi), R1. ring.
Qed.
Lemma c123_unique : forall a m w p q, (0 < m)%nat -> counts a m w -> nonneg_counts m w -> each_won m w -> connected m w ->
  probabilities m p -> probabilities m q -> most_likely m w p -> most_likely m w q -> forall i, (i < m)%nat -> p i = q i.
Proof.
  intros a m w p q Hm Ha Hw He Hc Pp Pq Mp Mq. apply (balanced_unique m w); try assumption.
  - apply (fixed_iff a m w p); try assumption. apply (c123_maximum a m w p); assumption.
  - apply (fixed_iff a m w q); try assumption. apply (c123_maximum a m w q); assumption.
Qed.

(** ** Cluster points *)
Definition infinite (A : nat -> Prop) : Prop := forall N, exists n, (N <= n)%nat /\ A n.
Lemma cluster1 : forall (A : R -> nat -> Prop) (u : nat -> R) B, (forall e e' n, 0 < e <= e' -> A e n -> A e' n) ->
  (forall e, 0 < e -> infinite (A e)) -> (forall n, Rabs (u n) <= B) -> exists l, forall e, 0 < e -> infinite (fun n => A e n /\ Rabs (u n - l) < e).
Proof.
  intros A u B Hmono Hinf Hb. set (E := fun x => forall e, 0 < e -> infinite (fun n => A e n /\ x <= u n)).
  assert (E0 : E (- B)).
  { intros e He N. destruct (Hinf e He N) as (n & Hn & An). exists n. repeat split; try assumption. generalize (Hb n). unfold Rabs. destruct (Rcase_abs (u n)); lra. }
  assert (Eb : bound E).
  { exists B. intros x Ex. destruct (Ex 1 Rlt_0_1 0%nat) as (n & _ & _ & L). generalize (Hb n). unfold Rabs. destruct (Rcase_abs (u n)); lra. }
  destruct (completeness E Eb (ex_intro _ _ E0)) as [l [Lub Least]]. exists l. intros e He N.
  assert (E1 : E (l - e / 2)).
  { destruct (classic (exists x, E x /\ l - e / 2 < x)) as [(x & Ex & Lx)|No].
    - intros d Hd K. destruct (Ex d Hd K) as (n & Hn & An & Un). exists n. repeat split; try assumption. lra.
    - exfalso. assert (l <= l - e / 2); [|lra]. apply Least. intros x Ex. destruct (Rle_dec x (l - e / 2)); [assumption|]. exfalso. apply No. exists x. split; [assumption|lra]. }
  assert (E2 : ~ E (l + e / 2)) by (intro H; generalize (Lub _ H); lra).
  assert (E3 : exists e0 K, 0 < e0 /\ forall n, (K <= n)%nat -> A e0 n -> u n < l + e / 2).
  { apply NNPP. intro No. apply E2. intros d Hd K. apply NNPP. intro No2. apply No. exists d, K. split; [assumption|].
    intros n Hn An. apply Rnot_le_lt. intro L. apply No2. exists n. auto. }
  destruct E3 as (e0 & K & He0 & H3). assert (Hd : 0 < Rmin e e0) by (apply Rmin_glb_lt; assumption).
  destruct (E1 _ Hd (Nat.max N K)) as (n & Hn & An & Un). exists n. split; [lia|]. split.
  - apply (Hmono _ _ _ (conj Hd (Rmin_l e e0)) An).
  - assert (U := H3 n ltac:(lia) (Hmono _ _ _ (conj Hd (Rmin_r e e0)) An)). unfold Rabs. destruct (Rcase_abs (u n - l)); lra.
Qed.
Lemma cluster : forall m (u : nat -> nat -> R) B, (forall i n, (i < m)%nat -> Rabs (u i n) <= B) ->
  exists l, forall e, 0 < e -> infinite (fun n => forall i, (i < m)%nat -> Rabs (u i n - l i) < e).
Proof.
  induction m as [|m IH]; intros u B H.
  - exists (fun _ => 0). intros e He N. exists N. split; [lia|]. intros; lia.
  - destruct (IH u B (fun i n Hi => H i n ltac:(lia))) as [l Hl].
    destruct (cluster1 (fun e n => forall i, (i < m)%nat -> Rabs (u i n - l i) < e) (u m) B) as [lm Hlm].
    + intros e e' n [He He'] A i Hi. generalize (A i Hi). lra.
    + exact Hl.
    + intros n. apply H. lia.
    + exists (fun i => if Nat.eqb i m then lm else l i). intros e He N. destruct (Hlm e He N) as (n & Hn & A & Am). exists n. split; [exact Hn|].
      intros i Hi. destruct (Nat.eqb_spec i m) as [->|Ne]; [exact Am|]. apply A. lia.
Qed.

(** ** The iterates *)
Definition it (m : nat) (w : nat -> nat -> R) (n : nat) : nat -> R := Nat.iter n (step m w) (fun _ => / INR m).
Lemma it_S : forall m w n, it m w (S n) = step m w (it m w n). Proof. reflexivity. Qed.
Lemma it_prob : forall m w n, (0 < m)%nat -> nonneg_counts m w -> each_won m w -> probabilities m (it m w n).
Proof. intros m w n Hm Hw He. induction n as [|n IH]; [apply start_prob, Hm|]. rewrite it_S. apply step_prob; try assumption. apply IH. Qed.
Lemma passes_it : forall a m w n, (0 < m)%nat -> counts a m w -> nonneg_counts m w -> each_won m w -> passes a m n = vec m (it m w n).
Proof.
  intros a m w n Hm Ha Hw He. unfold passes. induction n as [|n IH]; [apply bt_start_eq, Hm|].
  change (bt_step a (Nat.iter n (bt_step a) (bt_start m)) = vec m (it m w (S n))). rewrite IH, it_S. apply bt_step_eq; try assumption. apply it_prob; assumption.
Qed.
Lemma it_gain : forall m w n, (0 < m)%nat -> nonneg_counts m w -> each_won m w -> bt_likelihood m w (it m w n) + gap m w (it m w n) <= bt_likelihood m w (it m w (S n)).
Proof. intros. rewrite it_S. apply step_gain; try assumption. apply it_prob; assumption. Qed.
Lemma it_mono : forall m w n k, (0 < m)%nat -> nonneg_counts m w -> each_won m w -> (n <= k)%nat -> bt_likelihood m w (it m w n) <= bt_likelihood m w (it m w k).
Proof.
  intros m w n k Hm Hw He L. induction L as [|k L IH]; [lra|]. generalize (it_gain m w k Hm Hw He) (gap_nonneg m w (it m w k) He). lra.
Qed.

(** Large gains occur finitely often. *)
Lemma small_gain : forall m w A e, (0 < m)%nat -> nonneg_counts m w -> each_won m w -> infinite A -> 0 < e -> exists n, A n /\ gap m w (it m w n) < e.
Proof.
  intros m w A e Hm Hw He Inf He0. apply NNPP. intro No.
  assert (G : forall n, A n -> e <= gap m w (it m w n)).
  { intros n An. apply Rnot_lt_le. intro L. apply No. exists n. auto. }
  assert (K : forall k, exists n, bt_likelihood m w (it m w 0) + INR k * e <= bt_likelihood m w (it m w n)).
  { induction k as [|k [n IH]]; [exists 0%nat; cbn [INR]; lra|].
    destruct (Inf n) as (n' & Hn & An). exists (S n'). rewrite S_INR.
    generalize (it_gain m w n' Hm Hw He) (G n' An) (it_mono m w n n' Hm Hw He Hn). lra. }
  destruct (archimed_cor1 (e / (1 - bt_likelihood m w (it m w 0)))) as (k & Hk & Hk0).
  { apply Rdiv_lt_0_compat; [assumption|]. generalize (likelihood_nonpos m w (it m w 0) Hw (proj1 (it_prob m w 0 Hm Hw He))). lra. }
  assert (L0 := likelihood_nonpos m w (it m w 0) Hw (proj1 (it_prob m w 0 Hm Hw He))). set (b := bt_likelihood m w (it m w 0)) in *.
  destruct (K k) as (n & Hn). generalize (likelihood_nonpos m w (it m w n) Hw (proj1 (it_prob m w n Hm Hw He))). intros L1.
  assert (P : 0 < INR k) by (apply lt_0_INR; lia).
  assert (Q : 1 - b < INR k * e).
  { apply (Rmult_lt_compat_r (INR k * (1 - b))) in Hk; [|apply Rmult_lt_0_compat; lra].
    replace (/ INR k * (INR k * (1 - b))) with (1 - b) in Hk by (field; lra).
    replace (e / (1 - b) * (INR k * (1 - b))) with (INR k * e) in Hk by (field; lra). exact Hk. }
  lra.
Qed.

(** ** Strengths stay away from 0 *)
Lemma linked_won : forall m w, (2 <= m)%nat -> nonneg_counts m w -> linked m w -> each_won m w.
Proof.
  intros m w Hm Hw Hl i Hi. set (j := if Nat.eqb i 0 then 1%nat else 0%nat).
  assert (J : (j < m)%nat /\ i <> j) by (unfold j; destruct (Nat.eqb_spec i 0); lia). destruct J as [Hj Nj].
  destruct (Hl i j Hi Hj) as [i _|i k j' Hi' Wk A]; [congruence|].
  apply (total_pos m (w i) k); [apply (above_range _ _ _ _ A)| |exact Wk]. intros; apply Hw; assumption.
Qed.
Lemma above_bound : forall m w L i j, nonneg_counts m w -> above m w i j -> exists c, 0 < c /\ forall p, positive m p -> L <= bt_likelihood m w p -> p j <= c * p i.
Proof.
  intros m w L i j Hw A. induction A as [i Hi|i k j Hi Wk A [c [Hc IH]]].
  - exists 1. split; [lra|]. intros. lra.
  - exists (c * exp (- (L / w i k))). split; [apply Rmult_lt_0_compat; [assumption|apply exp_pos]|]. intros p Hp HL.
    destruct (above_range _ _ _ _ A) as [Hk Hj]. generalize (IH p Hp HL). intros B.
    assert (T := likelihood_term m w p i k Hw Hp Hi Hk). assert (P := beats_pos m p i k Hp Hi Hk).
    assert (E : L / w i k <= ln (beats p i k)).
    { apply Rmult_le_reg_r with (w i k); [assumption|]. unfold Rdiv. rewrite Rmult_assoc, Rinv_l by lra. lra. }
    assert (X : exp (L / w i k) <= beats p i k).
    { rewrite <- (exp_ln (beats p i k) P). destruct E as [E|E]; [left; apply exp_increasing, E|rewrite E; lra]. }
    assert (Y : p k <= exp (- (L / w i k)) * p i).
    { generalize (Hp i Hi) (Hp k Hk). intros Pi Pk. rewrite exp_Ropp. assert (Ex := exp_pos (L / w i k)). set (x := exp (L / w i k)) in *.
      apply Rmult_le_reg_l with x; [assumption|]. rewrite <- Rmult_assoc, Rinv_r by lra.
      unfold beats in X. apply (Rmult_le_compat_r (p i + p k)) in X; [|lra]. unfold Rdiv in X. rewrite Rmult_assoc, Rinv_l in X by lra.
      generalize (Rmult_lt_0_compat x (p i) Ex Pi). lra. }
    apply Rle_trans with (c * p k); [assumption|]. rewrite Rmult_assoc. apply Rmult_le_compat_l; lra.
Qed.
Lemma finite_bound : forall m (P : nat -> R -> Prop), (forall j c c', (j < m)%nat -> c <= c' -> P j c -> P j c') -> (forall j, (j < m)%nat -> exists c, P j c) ->
  exists c, 1 <= c /\ forall j, (j < m)%nat -> P j c.
Proof.
  induction m as [|m IH]; intros P Hm H.
  - exists 1. split; [lra|]. intros; lia.
  - destruct (IH P (fun j c c' Hj => Hm j c c' ltac:(lia)) (fun j Hj => H j ltac:(lia))) as (c & C1 & Hc). destruct (H m ltac:(lia)) as (c' & Hc').
    exists (Rmax c c'). split; [generalize (Rmax_l c c'); lra|]. intros j Hj. destruct (Nat.eq_dec j m) as [->|].
    + apply Hm with c'; [lia|apply Rmax_r|assumption].
    + apply Hm with c; [lia|apply Rmax_l|]. apply Hc. lia.
Qed.
Lemma away : forall m w L, (0 < m)%nat -> nonneg_counts m w -> linked m w -> exists c, 1 <= c /\ forall p, probabilities m p -> L <= bt_likelihood m w p -> forall i, (i < m)%nat -> / c <= p i <= 1.
Proof.
  intros m w L Hm Hw Hl.
  assert (C : exists c, 1 <= c /\ forall i, (i < m)%nat -> forall j, (j < m)%nat -> forall p, positive m p -> L <= bt_likelihood m w p -> p j <= c * p i).
  { apply (finite_bound m (fun i c => forall j, (j < m)%nat -> forall p, positive m p -> L <= bt_likelihood m w p -> p j <= c * p i)).
    - intros i c c' Hi Hc H j Hj p Hp HL. generalize (H j Hj p Hp HL) (Hp i Hi). nra.
    - intros i Hi. destruct (finite_bound m (fun j c => forall p, positive m p -> L <= bt_likelihood m w p -> p j <= c * p i)) as (c & _ & Hc).
      + intros j c c' Hj Hc H p Hp HL. generalize (H p Hp HL) (Hp i Hi). nra.
      + intros j Hj. destruct (above_bound m w L i j Hw (Hl i j Hi Hj)) as (c & _ & Hc). exists c. exact Hc.
      + exists c. exact Hc. }
  destruct C as (c & C1 & Hc). assert (M1 : 1 <= INR m) by (change 1 with (INR 1); apply le_INR; lia).
  exists (INR m * c). split; [nra|]. intros p [Hp Sp] HL i Hi. split.
  - assert (T := total_const_le m p (c * p i) (fun j Hj => Hc i Hi j Hj p Hp HL)). rewrite Sp in T.
    apply Rmult_le_reg_l with (INR m * c); [nra|]. rewrite Rinv_r by nra. lra.
  - rewrite <- Sp. assert (X : 0 <= total m (fun k => p k - (if Nat.eqb k i then 1 else 0) * p k)).
    { apply total_nonneg. intros k Hk. generalize (Hp k Hk). destruct (Nat.eqb k i); lra. }
    rewrite total_sub, total_delta in X by exact Hi. lra.
Qed.

(** ** Closeness up to a factor *)
Definition within (m : nat) (p : nat -> R) (lo hi : R) (q : nat -> R) : Prop := forall i, (i < m)%nat -> lo * p i <= q i <= hi * p i.
Lemma rate_within : forall m w p lo hi q i, nonneg_counts m w -> positive m p -> 0 < lo -> 0 < hi -> within m p lo hi q -> (i < m)%nat ->
  rate m w p i / hi <= rate m w q i <= rate m w p i / lo.
Proof.
  intros m w p lo hi q i Hw Hp Hlo Hhi H Hi. unfold rate, Rdiv. rewrite <- !total_mulr.
  assert (Pos : forall x y, 0 < x -> 0 < y -> 0 < x * y) by (intros; apply Rmult_lt_0_compat; assumption).
  split; apply total_le; intros j Hj; destruct (H i Hi) as [Li Ui]; destruct (H j Hj) as [Lj Uj];
    generalize (Hp i Hi) (Hp j Hj) (games_nonneg m w Hw i j Hi Hj); intros Pi Pj Gg;
    generalize (Pos lo (p i) Hlo Pi) (Pos lo (p j) Hlo Pj); intros A B; rewrite Rmult_assoc;
    apply Rmult_le_compat_l; try assumption; rewrite <- Rinv_mult; apply Rinv_le_contravar; nra.
Qed.
Lemma raw_within : forall m w p lo hi q, nonneg_counts m w -> each_won m w -> positive m p -> balanced m w p -> 0 < lo -> 0 < hi -> positive m q ->
  within m p lo hi q -> within m p lo hi (raw m w q).
Proof.
  intros m w p lo hi q Hw He Hp Hb Hlo Hhi Hq H i Hi.
  assert (Pi := Hp i Hi). assert (R1 := rate_pos m w p i Hw He Hp Hi). assert (R2 := rate_pos m w q i Hw He Hq Hi).
  destruct (rate_within m w p lo hi q i Hw Hp Hlo Hhi H Hi) as [A B]. unfold raw. rewrite (Hb i Hi), expected_rate.
  apply (Rmult_le_compat_r hi) in A; [|lra]. apply (Rmult_le_compat_r lo) in B; [|lra].
  unfold Rdiv in A, B. rewrite Rmult_assoc, Rinv_l, Rmult_1_r in A, B by lra.
  split; apply Rmult_le_reg_r with (rate m w q i); try assumption; unfold Rdiv; rewrite (Rmult_assoc _ (/ _)), Rinv_l, Rmult_1_r by lra; nra.
Qed.
Lemma step_within : forall m w p lo hi q, (0 < m)%nat -> nonneg_counts m w -> each_won m w -> positive m p -> balanced m w p -> 0 < lo -> 0 < hi -> positive m q ->
  within m p lo hi q -> exists s, 0 < s /\ within m p (lo * s) (hi * s) (step m w q).
Proof.
  intros m w p lo hi q Hm Hw He Hp Hb Hlo Hhi Hq H. assert (T := total_all_pos m (raw m w q) Hm (raw_pos m w q Hw He Hq)).
  exists (/ total m (raw m w q)). split; [apply Rinv_0_lt_compat, T|]. intros i Hi. destruct (raw_within m w p lo hi q Hw He Hp Hb Hlo Hhi Hq H i Hi) as [A B].
  assert (S := Rinv_0_lt_compat _ T). unfold step, Rdiv. split; [replace (lo * / total m (raw m w q) * p i) with (lo * p i * / total m (raw m w q)) by ring|
    replace (hi * / total m (raw m w q) * p i) with (hi * p i * / total m (raw m w q)) by ring]; apply Rmult_le_compat_r; lra.
Qed.
Lemma stay_within : forall m w p r n k, (0 < m)%nat -> nonneg_counts m w -> each_won m w -> probabilities m p -> balanced m w p -> (n <= k)%nat ->
  (exists lo hi, 0 < lo /\ 0 < hi /\ hi <= r * lo /\ within m p lo hi (it m w n)) -> exists lo hi, 0 < lo /\ 0 < hi /\ hi <= r * lo /\ within m p lo hi (it m w k).
Proof.
  intros m w p r n k Hm Hw He [Hp Sp] Hb L H. induction L as [|k L IH]; [exact H|].
  destruct IH as (lo & hi & Hlo & Hhi & R & W). destruct (step_within m w p lo hi (it m w k) Hm Hw He Hp Hb Hlo Hhi (proj1 (it_prob m w k Hm Hw He)) W) as (s & Hs & W').
  exists (lo * s), (hi * s). repeat split; try (apply Rmult_lt_0_compat; assumption).
  - rewrite <- Rmult_assoc. apply Rmult_le_compat_r; lra.
  - apply (W' i H0).
  - apply (W' i H0).
Qed.
Lemma within_near : forall m p q lo hi e, probabilities m p -> probabilities m q -> 0 < lo -> hi <= exp e * lo -> within m p lo hi q -> within m p (exp (- e)) (exp e) q.
Proof.
  intros m p q lo hi e [Hp Sp] [Hq Sq] Hlo R W.
  assert (A : lo <= 1). { generalize (total_le m (fun i => lo * p i) q (fun i Hi => proj1 (W i Hi))). rewrite total_mul, Sp, Sq. lra. }
  assert (B : 1 <= hi). { generalize (total_le m q (fun i => hi * p i) (fun i Hi => proj2 (W i Hi))). rewrite total_mul, Sp, Sq. lra. }
  assert (Ex := exp_pos e). assert (E1 : exp (- e) <= lo).
  { rewrite exp_Ropp. apply Rmult_le_reg_l with (exp e); [assumption|]. rewrite Rinv_r by lra. lra. }
  assert (E2 : hi <= exp e) by nra.
  intros i Hi. destruct (W i Hi) as [L U]. assert (Pi := Hp i Hi). split; [apply Rle_trans with (lo * p i)|apply Rle_trans with (hi * p i)]; try assumption; apply Rmult_le_compat_r; lra.
Qed.

(** ** The limit *)
Lemma exp_le : forall x y, x <= y -> exp x <= exp y.
Proof. intros x y [H|H]; [left; apply exp_increasing, H|rewrite H; lra]. Qed.
Lemma ln_le_mono : forall x y, 0 < x -> x <= y -> ln x <= ln y.
Proof. intros x y Hx [H|H]; [left; apply ln_increasing; assumption|rewrite H; lra]. Qed.
Lemma tiny : forall x c, 0 < c -> (forall e, 0 < e -> Rabs x <= c * e) -> x = 0.
Proof.
  intros x c Hc H. destruct (Req_dec x 0) as [|N]; [assumption|]. assert (P := Rabs_pos_lt x N).
  generalize (H (Rabs x / (2 * c)) ltac:(apply Rdiv_lt_0_compat; lra)). replace (c * (Rabs x / (2 * c))) with (Rabs x / 2) by (field; lra). lra.
Qed.
Lemma load_small : forall m w p e, nonneg_counts m w -> each_won m w -> positive m p -> 0 < e -> 
  exists d, 0 < d /\ forall q i, (i < m)%nat -> positive m q -> gap m w q < d -> Rabs (ln (load m w q i)) <= e.
Proof.
  intros m w p e Hw He Hp He0. set (t := 1 - exp (- (e / 2))).
  assert (Ht : 0 < t). { unfold t. assert (exp (- (e / 2)) < exp 0) by (apply exp_increasing; lra). rewrite exp_0 in H. lra. }
  assert (Hw1 : exists c, 1 <= c /\ forall i, (i < m)%nat -> 1 <= c * wins m w i).
  { apply (finite_bound m (fun i c => 1 <= c * wins m w i)).
    - intros i c c' Hi Hc H. generalize (He i Hi). nra.
    - intros i Hi. exists (/ wins m w i). rewrite Rinv_l; [lra|]. apply Rgt_not_eq, He, Hi. }
  destruct Hw1 as (c & C1 & Hc). exists (t * t / c). split; [apply Rdiv_lt_0_compat; nra|]. intros q i Hi Hq G.
  assert (L0 := load_pos m w q i Hw He Hq Hi). set (x := load m w q i) in *.
  assert (T : wins m w i * ((sqrt x - 1) * (sqrt x - 1)) < t * t / c).
  { apply Rle_lt_trans with (gap m w q); [|exact G]. unfold gap.
    assert (X : 0 <= total m (fun k => wins m w k * ((sqrt (load m w q k) - 1) * (sqrt (load m w q k) - 1)) - (if Nat.eqb k i then 1 else 0) * (wins m w k * ((sqrt (load m w q k) - 1) * (sqrt (load m w q k) - 1))))).
    { apply total_nonneg. intros k Hk. assert (0 <= wins m w k * ((sqrt (load m w q k) - 1) * (sqrt (load m w q k) - 1))) by (apply Rmult_le_pos; [left; apply He, Hk|apply Rle_0_sqr]).
      destruct (Nat.eqb k i); lra. }
    rewrite total_sub, total_delta in X by exact Hi. fold x in X. lra. }
  assert (T2 : (sqrt x - 1) * (sqrt x - 1) < t * t).
  { assert (W0 := He i Hi). apply (Rmult_lt_compat_l c) in T; [|lra]. replace (c * (t * t / c)) with (t * t) in T by (field; lra).
    generalize (Hc i Hi) (Rle_0_sqr (sqrt x - 1)). unfold Rsqr. nra. }
  assert (T3 : - t < sqrt x - 1 < t) by (split; nra).
  assert (Lx : ln x = 2 * ln (sqrt x)). { rewrite <- (sqrt_sqrt x) at 1 by lra. rewrite ln_mult by (apply sqrt_lt_R0, L0). ring. }
  assert (P := sqrt_lt_R0 x L0).
  assert (A : - (e / 2) <= ln (sqrt x)). { rewrite <- (ln_exp (- (e / 2))). apply ln_le_mono; [apply exp_pos|]. unfold t in T3. lra. }
  assert (B : ln (sqrt x) <= e / 2).
  { rewrite <- (ln_exp (e / 2)). apply ln_le_mono; [assumption|].
    assert (Y : sqrt x <= 2 - exp (- (e / 2))) by (unfold t in T3; lra). assert (Ee := exp_pos (e / 2)).
    assert (Z : 2 - exp (- (e / 2)) <= exp (e / 2)). { rewrite exp_Ropp. set (y := exp (e / 2)) in *. 
      apply Rmult_le_reg_r with y; [assumption|]. rewrite Rmult_minus_distr_r, Rinv_l by lra. generalize (Rle_0_sqr (y - 1)). unfold Rsqr. lra. }
    lra. }
  rewrite Lx. unfold Rabs. destruct (Rcase_abs _); lra.
Qed.
Lemma load_within : forall m w p q e i, nonneg_counts m w -> each_won m w -> positive m p -> positive m q -> 0 < e -> within m p (exp (- e)) (exp e) q -> (i < m)%nat ->
  Rabs (ln (load m w q i) - ln (load m w p i)) <= 2 * e.
Proof.
  intros m w p q e i Hw He Hp Hq He0 W Hi.
  destruct (rate_within m w p (exp (- e)) (exp e) q i Hw Hp (exp_pos _) (exp_pos _) W Hi) as [A B]. destruct (W i Hi) as [C D].
  assert (R1 := rate_pos m w p i Hw He Hp Hi). assert (R2 := rate_pos m w q i Hw He Hq Hi). assert (Pp := Hp i Hi). assert (Pq := Hq i Hi).
  assert (Lp : ln (load m w p i) = ln (p i) + ln (rate m w p i) - ln (wins m w i)).
  { unfold load. rewrite expected_rate, ln_div, ln_mult; try assumption; [reflexivity|apply Rmult_lt_0_compat; assumption|apply He, Hi]. }
  assert (Lq : ln (load m w q i) = ln (q i) + ln (rate m w q i) - ln (wins m w i)).
  { unfold load. rewrite expected_rate, ln_div, ln_mult; try assumption; [reflexivity|apply Rmult_lt_0_compat; assumption|apply He, Hi]. }
  assert (Ex := exp_pos e). assert (Ex' := exp_pos (- e)).
  apply ln_le_mono in A; [|apply Rdiv_lt_0_compat; assumption]. apply ln_le_mono in B; [|assumption].
  apply ln_le_mono in C; [|apply Rmult_lt_0_compat; assumption]. apply ln_le_mono in D; [|assumption].
  rewrite ln_div, ln_exp in A, B by assumption. rewrite ln_mult, ln_exp in C, D by assumption.
  rewrite Lp, Lq. unfold Rabs. destruct (Rcase_abs _); lra.
Qed.

Lemma limit : forall m w, (2 <= m)%nat -> nonneg_counts m w -> linked m w ->
  exists p, probabilities m p /\ balanced m w p /\ forall e, 0 < e -> exists n, forall k, (n <= k)%nat -> within m p (exp (- e)) (exp e) (it m w k).
Proof.
  intros m w Hm2 Hw Hl. assert (Hm : (0 < m)%nat) by lia. assert (He := linked_won m w Hm2 Hw Hl).
  destruct (away m w (bt_likelihood m w (it m w 0)) Hm Hw Hl) as (c & C1 & Hc).
  assert (Hb : forall i n, (i < m)%nat -> Rabs (ln (it m w n i)) <= ln c).
  { intros i n Hi. destruct (Hc (it m w n) (it_prob m w n Hm Hw He) (it_mono m w 0 n Hm Hw He ltac:(lia)) i Hi) as [A B].
    assert (P : 0 < / c) by (apply Rinv_0_lt_compat; lra). apply ln_le_mono in A; [|assumption]. apply ln_le_mono in B; [|apply (it_prob m w n Hm Hw He), Hi].
    rewrite ln_Rinv in A by lra. rewrite ln_1 in B. assert (0 <= ln c) by (rewrite <- ln_1; apply ln_le_mono; lra). unfold Rabs. destruct (Rcase_abs _); lra. }
  destruct (cluster m (fun i n => ln (it m w n i)) (ln c) Hb) as [l Cl]. set (p := fun i => exp (l i)).
  assert (Hp : positive m p) by (intros i _; apply exp_pos).
  assert (Near : forall e n, (forall i, (i < m)%nat -> Rabs (ln (it m w n i) - l i) < e) -> within m p (exp (- e)) (exp e) (it m w n)).
  { intros e n H i Hi. generalize (H i Hi). intros A. assert (P := proj1 (it_prob m w n Hm Hw He) i Hi). unfold p. rewrite <- !exp_plus. rewrite <- (exp_ln (it m w n i) P).
    apply Rabs_def2 in A. split; apply exp_le; lra. }
  assert (Sp : total m p = 1).
  { assert (T := total_all_pos m p Hm Hp). assert (Z : ln (total m p) = 0).
    { apply (tiny _ 1); [lra|]. intros e He0. destruct (Cl e He0 0%nat) as (n & _ & A). apply Near in A. destruct (it_prob m w n Hm Hw He) as [_ S].
      assert (A1 := total_le m (fun i => exp (- e) * p i) (it m w n) (fun i Hi => proj1 (A i Hi))). assert (A2 := total_le m (it m w n) (fun i => exp e * p i) (fun i Hi => proj2 (A i Hi))).
      rewrite total_mul, S in A1, A2. apply ln_le_mono in A1; [|apply Rmult_lt_0_compat; [apply exp_pos|assumption]]. apply ln_le_mono in A2; [|lra].
      rewrite ln_mult, ln_exp, ln_1 in A1, A2 by (try apply exp_pos; assumption). unfold Rabs. destruct (Rcase_abs _); lra. }
    rewrite <- (exp_ln _ T), Z. apply exp_0. }
  assert (Bal : balanced m w p).
  { intros i Hi. assert (L0 := load_pos m w p i Hw He Hp Hi). assert (Z : ln (load m w p i) = 0).
    { apply (tiny _ 3); [lra|]. intros e He0. destruct (load_small m w p e Hw He Hp He0) as (d & Hd & Hs).
      destruct (small_gain m w _ d Hm Hw He (Cl e He0) Hd) as (n & A & G). apply Near in A.
      assert (Pn := proj1 (it_prob m w n Hm Hw He)). assert (B1 := Hs _ i Hi Pn G). assert (B2 := load_within m w p (it m w n) e i Hw He Hp Pn He0 A Hi).
      generalize B1 B2. unfold Rabs. destruct (Rcase_abs (ln (load m w (it m w n) i))), (Rcase_abs (ln (load m w (it m w n) i) - ln (load m w p i))), (Rcase_abs (ln (load m w p i))); lra. }
    assert (L1 : load m w p i = 1) by (rewrite <- (exp_ln _ L0), Z; apply exp_0). unfold load in L1. assert (W0 := He i Hi).
    apply Rmult_eq_reg_r with (/ wins m w i); [|apply Rinv_neq_0_compat; lra]. unfold Rdiv in L1. rewrite L1. apply Rinv_r. lra. }
  exists p. split; [split; assumption|]. split; [exact Bal|]. intros e He0.
  destruct (Cl (e / 2) ltac:(lra) 0%nat) as (n & _ & A). apply Near in A. exists n. intros k Hk.
  destruct (stay_within m w p (exp e) n k Hm Hw He (conj Hp Sp) Bal Hk) as (lo & hi & Hlo & Hhi & R & W).
  - exists (exp (- (e / 2))), (exp (e / 2)). repeat split; try apply exp_pos; try apply A; try assumption. rewrite <- exp_plus. apply exp_le. lra.
  - apply (within_near m p (it m w k) lo hi e); try assumption; [split; assumption|apply it_prob; assumption].
Qed.

Lemma within_abs : forall m p q e, probabilities m p -> probabilities m q -> 0 < e -> within m p (exp (- ln (1 + e))) (exp (ln (1 + e))) q -> forall i, (i < m)%nat -> Rabs (q i - p i) <= e.
Proof.
  intros m p q e [Hp Sp] [Hq Sq] He W i Hi. destruct (W i Hi) as [A B]. rewrite exp_Ropp in A. rewrite exp_ln in A, B by lra. assert (Pi := Hp i Hi). assert (Qi := Hq i Hi).
  assert (One : forall r, positive m r -> total m r = 1 -> r i <= 1).
  { intros r Hr Sr. rewrite <- Sr. assert (X : 0 <= total m (fun k => r k - (if Nat.eqb k i then 1 else 0) * r k)).
    { apply total_nonneg. intros k Hk. generalize (Hr k Hk). destruct (Nat.eqb k i); lra. }
    rewrite total_sub, total_delta in X by exact Hi. lra. }
  assert (P1 := One p Hp Sp). assert (Q1 := One q Hq Sq).
  apply (Rmult_le_compat_l (1 + e)) in A; [|lra]. rewrite <- Rmult_assoc, Rinv_r in A by lra. unfold Rabs. destruct (Rcase_abs _); nra.
Qed.
Lemma c124_converges : forall a m w, (2 <= m)%nat -> counts a m w -> nonneg_counts m w -> linked m w ->
  exists p, probabilities m p /\ most_likely m w p /\ bt_step a (vec m p) = vec m p /\
    forall e, 0 < e -> exists n0, forall n, (n0 <= n)%nat -> exists q, passes a m n = vec m q /\ forall i, (i < m)%nat -> Rabs (q i - p i) <= e.
Proof.
  intros a m w Hm2 Ha Hw Hl. assert (Hm : (0 < m)%nat) by lia. assert (He := linked_won m w Hm2 Hw Hl).
  destruct (limit m w Hm2 Hw Hl) as (p & Hp & Hb & Lim). exists p.
  assert (F : bt_step a (vec m p) = vec m p) by (apply (fixed_iff a m w p); assumption).
  split; [exact Hp|]. split; [apply (c123_maximum a m w p); assumption|]. split; [exact F|]. intros e He0.
  assert (L1 : 0 < ln (1 + e)) by (rewrite <- ln_1; apply ln_increasing; lra).
  destruct (Lim _ L1) as (n0 & H). exists n0. intros n Hn. exists (it m w n). split; [apply passes_it; assumption|].
  apply within_abs; try assumption; [apply it_prob; assumption|apply H, Hn].
Qed.

(** ** The loop ends *)
Lemma iter_shift : forall A (f : A -> A) n x, Nat.iter (S n) f x = Nat.iter n f (f x).
Proof. intros A f n x. induction n as [|n IH]; [reflexivity|]. change (f (Nat.iter (S n) f x) = f (Nat.iter n f (f x))). rewrite IH. reflexivity. Qed.
Lemma loop_ends : forall a m w n p, (0 < m)%nat -> counts a m w -> nonneg_counts m w -> each_won m w -> probabilities m p ->
  distance m (Nat.iter (S n) (step m w) p) (Nat.iter n (step m w) p) <= 1 / 100000000 -> exists q, bt_loop (S n) a (vec m p) = Ok (vec m q).
Proof.
  intros a m w n. induction n as [|n IH]; intros p Hm Ha Hw He Hp D.
  - cbn [bt_loop]. destruct Ha as (A0 & A1 & A2) eqn:EA. clear EA. rewrite (bt_step_eq a m w p) by (try assumption; try apply Hp; repeat split; assumption).
    rewrite A0, sp_norm_diff. cbn [bind]. change (Nat.iter 1 (step m w) p) with (step m w p) in D. change (Nat.iter 0 (step m w) p) with p in D.
    unfold ngtb. rewrite pc_thr_ef. efc. cbn [ef_ltb]. destruct (Rltb (1 / 100000000) (distance m (step m w p) p)) eqn:B; [apply Rltb_true in B; lra|].
    exists (step m w p). reflexivity.
  - change (bt_loop (S (S n)) a (vec m p)) with (let p' := bt_step a (vec m p) in do change <- sp_norm (map (fun i => nsub (vat p' i) (vat (vec m p) i)) (seq 0 (n0 a)));
        if ngtb change pc_thr then bt_loop (S n) a p' else Ok p'). cbv zeta.
    assert (A0 := proj1 Ha). rewrite (bt_step_eq a m w p) by (try assumption; apply Hp).
    rewrite A0, sp_norm_diff. cbn [bind]. destruct (ngtb _ _); [|exists (step m w p); reflexivity].
    apply IH; try assumption; [apply step_prob; try assumption; apply Hp|].
    rewrite <- !iter_shift. exact D.
Qed.
Lemma distance_small : forall m p q, (0 < m)%nat -> (forall i, (i < m)%nat -> Rabs (p i - q i) <= 1 / 100000000 / INR m) -> distance m p q <= 1 / 100000000.
Proof.
  intros m p q Hm H. assert (M1 : 1 <= INR m) by (change 1 with (INR 1); apply le_INR; lia). unfold distance. set (t := 1 / 100000000) in *. assert (Ht : 0 < t) by (unfold t; lra).
  rewrite <- (sqrt_square t) by lra. apply sqrt_le_1_alt. eapply Rle_trans; [apply (total_const_le m _ (t / INR m * (t / INR m)))|].
  - intros i Hi. generalize (H i Hi). intros A. assert (0 < t / INR m) by (apply Rdiv_lt_0_compat; lra).
    replace ((p i - q i) * (p i - q i)) with (Rabs (p i - q i) * Rabs (p i - q i)) by (rewrite <- Rabs_mult; apply Rabs_pos_eq, Rle_0_sqr).
    assert (Z := Rabs_pos (p i - q i)). nra.
  - replace (INR m * (t / INR m * (t / INR m))) with (t * t * / INR m) by (field; lra). assert (I : / INR m <= 1) by (rewrite <- Rinv_1; apply Rinv_le_contravar; lra). nra.
Qed.
Lemma c124_ends : forall pinv a m w, (2 <= m)%nat -> counts a m w -> nonneg_counts m w -> linked m w -> (forall x, exists y, pinv x = Ok y) ->
  exists fuel r, bt_resolve pinv fuel a = Ok r.
Proof.
  intros pinv a m w Hm2 Ha Hw Hl Hpi. assert (Hm : (0 < m)%nat) by lia. assert (He := linked_won m w Hm2 Hw Hl).
  destruct (c124_converges a m w Hm2 Ha Hw Hl) as (p & Hp & _ & _ & C).
  assert (M1 : 1 <= INR m) by (change 1 with (INR 1); apply le_INR; lia).
  destruct (C (1 / 100000000 / INR m / 2)) as (n & Hn); [apply Rdiv_lt_0_compat; [apply Rdiv_lt_0_compat; lra|lra]|].
  assert (D : distance m (it m w (S n)) (it m w n) <= 1 / 100000000).
  { apply distance_small; [assumption|]. intros i Hi. destruct (Hn n (le_n n)) as (q & Eq & Hq). destruct (Hn (S n) ltac:(lia)) as (q' & Eq' & Hq').
    rewrite (passes_it a m w) in Eq, Eq' by assumption. rewrite (vec_inj m _ _ Eq i Hi), (vec_inj m _ _ Eq' i Hi).
    generalize (Hq i Hi) (Hq' i Hi). set (t := 1 / 100000000 / INR m). unfold Rabs. destruct (Rcase_abs (q i - p i)), (Rcase_abs (q' i - p i)), (Rcase_abs (q' i - q i)); lra. }
  destruct (loop_ends a m w n (fun _ => / INR m) Hm Ha Hw He (start_prob m Hm) D) as (q & Eq).
  exists (S n). destruct Ha as (A0 & A1 & A2). unfold bt_resolve. rewrite A0, A1, Nat.eqb_refl. cbn [assert_ bind].
  replace (Nat.eqb m 0) with false by (symmetry; apply Nat.eqb_neq; lia). rewrite (bt_start_eq m Hm), Eq. cbn [bind].
  destruct (Hpi (bordered m (bt_lbda a (vec m q)))) as (y & Ey). rewrite Ey. cbn [bind]. eexists. reflexivity.
Qed.

(** ** Without links there is no most likely vector *)
Lemma finite_decide : forall m (S : nat -> Prop), exists b : nat -> bool, forall i, (i < m)%nat -> (b i = true <-> S i).
Proof.
  induction m as [|m IH]; intros S; [exists (fun _ => true); intros; lia|]. destruct (IH S) as (b & Hb). destruct (classic (S m)) as [Y|N].
  - exists (fun i => if Nat.eqb i m then true else b i). intros i Hi. destruct (Nat.eqb_spec i m) as [->|]; [tauto|]. apply Hb. lia.
  - exists (fun i => if Nat.eqb i m then false else b i). intros i Hi. destruct (Nat.eqb_spec i m) as [->|]; [split; [discriminate|tauto]|]. apply Hb. lia.
Qed.
Lemma crossing : forall m w i j (S : nat -> Prop), above m w i j -> S i -> ~ S j -> exists x y, (x < m)%nat /\ (y < m)%nat /\ S x /\ ~ S y /\ 0 < w x y.
Proof.
  intros m w i j S A. induction A as [i|i k j Hi Wk A IH]; intros Si Nj; [tauto|]. destruct (classic (S k)) as [Y|N]; [auto|].
  exists i, k. repeat split; try assumption. apply (above_range _ _ _ _ A).
Qed.
Lemma above_app : forall m w i j k, above m w i j -> (k < m)%nat -> 0 < w j k -> above m w i k.
Proof. intros m w i j k A Hk W. induction A; [apply above_beat with k; try assumption; constructor; assumption|]. eapply above_beat; eauto. Qed.
Lemma no_max : forall m w p (b : nat -> bool) x y, nonneg_counts m w -> positive m p ->
  (forall i j, (i < m)%nat -> (j < m)%nat -> b i = true -> b j = false -> w i j = 0) ->
  (x < m)%nat -> (y < m)%nat -> b x = true -> b y = false -> 0 < w y x ->
  exists q, positive m q /\ bt_likelihood m w p < bt_likelihood m w q.
Proof.
  intros m w p b x y Hw Hp Hz Hx Hy Bx By Wyx. set (q := fun i => if b i then p i else 2 * p i).
  assert (Hq : positive m q) by (intros i Hi; unfold q; generalize (Hp i Hi); destruct (b i); lra).
  exists q. split; [exact Hq|].
  assert (T : forall i j, (i < m)%nat -> (j < m)%nat -> 0 <= w i j * (ln (beats q i j) - ln (beats p i j)) /\ (b i = false -> b j = true -> 0 < w i j -> 0 < w i j * (ln (beats q i j) - ln (beats p i j)))).
  { intros i j Hi Hj. generalize (Hp i Hi) (Hp j Hj) (Hw i j Hi Hj). intros Pi Pj W0.
    assert (Bp := beats_pos m p i j Hp Hi Hj). unfold beats, q. unfold beats in Bp. destruct (b i) eqn:Bi, (b j) eqn:Bj.
    - replace (ln (p i / (p i + p j)) - ln (p i / (p i + p j))) with 0 by ring. split; [lra|discriminate].
    - rewrite (Hz i j Hi Hj Bi Bj). split; [lra|discriminate].
    - assert (L : ln (p i / (p i + p j)) < ln (2 * p i / (2 * p i + p j))).
      { apply ln_increasing; [assumption|]. apply Rmult_lt_reg_r with ((p i + p j) * (2 * p i + p j)); [nra|].
        replace (p i / (p i + p j) * ((p i + p j) * (2 * p i + p j))) with (p i * (2 * p i + p j)) by (field; lra).
        replace (2 * p i / (2 * p i + p j) * ((p i + p j) * (2 * p i + p j))) with (2 * p i * (p i + p j)) by (field; lra). nra. }
      split; [nra|]. intros _ _ W1. nra.
    - replace (2 * p i / (2 * p i + 2 * p j)) with (p i / (p i + p j)) by (field; lra).
      replace (ln (p i / (p i + p j)) - ln (p i / (p i + p j))) with 0 by ring. split; [lra|]. discriminate. }
  assert (P : 0 < total m (fun i => total m (fun j => w i j * (ln (beats q i j) - ln (beats p i j))))).
  { apply (total_pos m _ y Hy).
    - intros i Hi. apply total_nonneg. intros j Hj. apply T; assumption.
    - apply (total_pos m (fun j => w y j * (ln (beats q y j) - ln (beats p y j))) x Hx); [intros; apply T; assumption|]. apply T; assumption. }
  rewrite likelihood_diff in P. lra.
Qed.
Lemma c125_exists : forall m w, (2 <= m)%nat -> nonneg_counts m w -> connected m w -> ((exists p, most_likely m w p) <-> linked m w).
Proof.
  intros m w Hm2 Hw Hc. split.
  - intros (p & Hp & M) i j Hi Hj. apply NNPP. intro N.
    destruct (finite_decide m (fun k => above m w i k)) as (b & Hb).
    destruct (crossing m (games w) i j (fun k => above m w i k) (Hc i j Hi Hj) (above_self m w i Hi) N) as (x & y & Hx & Hy & Sx & Ny & G).
    assert (Z : w x y = 0). { generalize (Hw x y Hx Hy). intros [W|W]; [exfalso; apply Ny, (above_app m w i x y); assumption|auto]. }
    unfold games in G. destruct (no_max m w p b x y Hw Hp) as (q & Hq & L); try assumption.
    + intros i' j' Hi' Hj' Bi Bj. generalize (Hw i' j' Hi' Hj'). intros [W|W]; [|auto]. exfalso.
      assert (A := above_app m w i i' j' (proj1 (Hb i' Hi') Bi) Hj' W). apply (Hb j' Hj') in A. congruence.
    + apply Hb; assumption.
    + destruct (b y) eqn:By; [|reflexivity]. exfalso. apply Ny, Hb; assumption.
    + lra.
    + generalize (M q Hq). lra.
  - intros Hl. set (a := Arr2 m m (fun i j => Fin (w i j))). assert (Ha : counts a m w) by (repeat split).
    destruct (c124_converges a m w Hm2 Ha Hw Hl) as (p & _ & M & _). exists p. exact M.
Qed.

(** ** The Newton solver has the same solutions *)
From Verif Require Import Bt5Proofs.
Lemma expected_scale : forall m w p q c, 0 < c -> positive m p -> (forall i, (i < m)%nat -> q i = c * p i) -> forall i, (i < m)%nat -> expected m w q i = expected m w p i.
Proof.
  intros m w p q c Hc Hp E i Hi. unfold expected. apply total_ext. intros j Hj. f_equal. unfold beats. rewrite (E i Hi), (E j Hj), <- Rmult_plus_distr_l.
  generalize (Hp i Hi) (Hp j Hj). intros. field. lra.
Qed.
Lemma c123_newton : forall a m w p g, (0 < m)%nat -> counts a m w -> nonneg_counts m w -> each_won m w -> connected m w ->
  probabilities m p -> most_likely m w p ->
  ((forall i, (i < m - 1)%nat -> nr_dL a (vec m g) i = Fin 0) <-> exists c, forall i, (i < m)%nat -> g i = ln (p i) + c).
Proof.
  intros a m w p g Hm Ha Hw He Hc Hp Mp.
  assert (Bp : balanced m w p) by (apply (fixed_iff a m w p); try assumption; apply (c123_maximum a m w p); assumption).
  assert (D : forall i, (i < m)%nat -> nr_dL a (vec m g) i = Fin (wins m w i - expected m w (pexp g) i)).
  { intros i Hi. destruct (c74_gradient a m w g i Ha Hw Hi) as (x & Ex & Px). rewrite Ex. f_equal.
    apply (partial_unique _ _ _ _ _ Px (log_partial m w g i Hi)). }
  assert (Pg := pexp_pos m g). split.
  - intros H. assert (B1 : forall i, (i < m - 1)%nat -> wins m w i = expected m w (pexp g) i).
    { intros i Hi. specialize (H i Hi). rewrite D in H by lia. injection H as H. lra. }
    assert (Bg : balanced m w (pexp g)).
    { intros i Hi. destruct (Nat.eq_dec i (m - 1)) as [->|]; [|apply B1; lia].
      assert (T := total_expected m w (pexp g) Pg). assert (Em : forall f, total m f = total (m - 1) f + f (m - 1)%nat) by (intro f; rewrite <- total_S; f_equal; lia). rewrite !Em in T.
      rewrite (total_ext (m - 1) (wins m w) (expected m w (pexp g)) B1) in T. lra. }
    assert (T := total_all_pos m (pexp g) Hm Pg). set (t := total m (pexp g)) in *.
    set (q := fun i => / t * pexp g i). assert (It := Rinv_0_lt_compat _ T).
    assert (Pq : probabilities m q). { split; [intros i Hi; apply Rmult_lt_0_compat; auto|]. unfold q. rewrite total_mul. fold t. field. lra. }
    assert (Bq : balanced m w q). { intros i Hi. rewrite (expected_scale m w (pexp g) q (/ t)) by (auto). apply Bg, Hi. }
    assert (E := balanced_unique m w p q Hm Hw Hc Hp Pq Bp Bq). exists (ln t). intros i Hi. rewrite (E i Hi). unfold q, pexp.
    rewrite ln_mult, ln_exp, ln_Rinv by (try apply exp_pos; assumption). ring.
  - intros (c & E) i Hi. rewrite D by lia.
    rewrite (expected_scale m w p (pexp g) (exp c)); [|apply exp_pos|apply Hp| |lia].
    + rewrite <- (Bp i) by lia. f_equal. ring.
    + intros k Hk. unfold pexp. rewrite (E k Hk), exp_plus, exp_ln by (apply Hp, Hk). ring.
Qed.
