(** Lemmas for claim C137: mass and mean of the density of a sum of two uniforms. *)
From Coq Require Import List ZArith Bool Arith Reals Lia Lra.
From Coquelicot Require Import Coquelicot.
From Verif Require Import PyBase Num ExtReal ExtRealProofs SpecMos Mle Perf SpecPerf PerfProofs Perf2Proofs SpecMass.
Local Open Scope R_scope.

Lemma int_affine : forall f p q a b, p <= q -> (forall x, p < x < q -> f x = a * x + b) -> is_RInt f p q (a * (q * q - p * p) / 2 + b * (q - p)).
Proof.
  intros f p q a b HP HF. apply (is_RInt_ext (fun x => a * x + b)).
  { intros x Hx. rewrite Rmin_left, Rmax_right in Hx by lra. symmetry. apply HF. lra. }
  replace (a * (q * q - p * p) / 2 + b * (q - p)) with (minus (a * (q * q) / 2 + b * q) (a * (p * p) / 2 + b * p)).
  2: { unfold minus, plus, opp; cbn. field. }
  apply (is_RInt_derive (V := R_CompleteNormedModule) (fun x => a * (x * x) / 2 + b * x)).
  - intros x _. auto_derive; [trivial|]. field.
  - intros x _. apply (continuous_plus (V := R_NormedModule)); [apply (continuous_mult (K := R_AbsRing)); [apply continuous_const|apply continuous_id]|apply continuous_const].
Qed.
Lemma int_moment : forall f p q a b, p <= q -> (forall x, p < x < q -> f x = a * x + b) -> is_RInt (fun x => x * f x) p q (a * (q * q * q - p * p * p) / 3 + b * (q * q - p * p) / 2).
Proof.
  intros f p q a b HP HF. apply (is_RInt_ext (fun x => x * (a * x + b))).
  { intros x Hx. rewrite Rmin_left, Rmax_right in Hx by lra. rewrite HF by lra. reflexivity. }
  replace (a * (q * q * q - p * p * p) / 3 + b * (q * q - p * p) / 2) with (minus (a * (q * q * q) / 3 + b * (q * q) / 2) (a * (p * p * p) / 3 + b * (p * p) / 2)).
  2: { unfold minus, plus, opp; cbn. field. }
  apply (is_RInt_derive (V := R_CompleteNormedModule) (fun x => a * (x * x * x) / 3 + b * (x * x) / 2)).
  - intros x _. auto_derive; [trivial|]. field.
  - intros x _. apply (continuous_mult (K := R_AbsRing)); [apply continuous_id|].
    apply (continuous_plus (V := R_NormedModule)); [apply (continuous_mult (K := R_AbsRing)); [apply continuous_const|apply continuous_id]|apply continuous_const].
Qed.

Lemma int_second : forall f p q a b, p <= q -> (forall x, p < x < q -> f x = a * x + b) ->
  is_RInt (fun x => x * x * f x) p q (a * (q * q * q * q - p * p * p * p) / 4 + b * (q * q * q - p * p * p) / 3).
Proof.
  intros f p q a b HP HF. apply (is_RInt_ext (fun x => x * x * (a * x + b))).
  { intros x Hx. rewrite Rmin_left, Rmax_right in Hx by lra. rewrite HF by lra. reflexivity. }
  replace (a * (q * q * q * q - p * p * p * p) / 4 + b * (q * q * q - p * p * p) / 3) with (minus (a * (q * q * q * q) / 4 + b * (q * q * q) / 3) (a * (p * p * p * p) / 4 + b * (p * p * p) / 3)).
  2: { unfold minus, plus, opp; cbn. field. }
  apply (is_RInt_derive (V := R_CompleteNormedModule) (fun x => a * (x * x * x * x) / 4 + b * (x * x * x) / 3)).
  - intros x _. auto_derive; [trivial|]. field.
  - intros x _. apply (continuous_mult (K := R_AbsRing)); [apply (continuous_mult (K := R_AbsRing)); apply continuous_id|].
    apply (continuous_plus (V := R_NormedModule)); [apply (continuous_mult (K := R_AbsRing)); [apply continuous_const|apply continuous_id]|apply continuous_const].
Qed.

Section Sum.
  Variables l1 s1 l2 s2 : R.
  Hypothesis P1 : 0 < s1.
  Hypothesis P2 : 0 < s2.
  Let L := l1 + l2.
  Let s := s1 + s2.
  Let d := Rabs (s1 - s2).
  Let f (x : R) := overlap s1 s2 (x - l1 - l2) + flank s1 s2 (x - l1 - l2) * (l1 + l2) / (s1 * s2).
  Let Dp : 0 <= d. Proof. apply Rabs_pos. Qed.
  Let Ds : d < s. Proof. unfold d, s, Rabs. destruct (Rcase_abs (s1 - s2)); lra. Qed.
  Let SS : s1 * s2 = (s - d) * (s + d) / 4.
  Proof. unfold d, s, Rabs. destruct (Rcase_abs (s1 - s2)); lra. Qed.
  Let PP : 0 < s1 * s2. Proof. apply Rmult_lt_0_compat; assumption. Qed.
  Lemma sum_computes : computes (fun x => convolution_of_two_uniforms x (Fin l1) (Fin s1) (Fin l2) (Fin s2)) f.
  Proof. intro x. apply conv_value; assumption. Qed.
  Let out : forall x, x < L - s / 2 \/ L + s / 2 < x -> f x = 0.
  Proof.
    intros x H. assert (K := c59_support x l1 s1 l2 s2 P1 P2). rewrite (sum_computes x) in K.
    assert (E : Fin (f x) = Fin 0); [|injection E as E; exact E]. apply K. unfold L, s in H. unfold Rabs. destruct (Rcase_abs (x - l1 - l2)); lra.
  Qed.
  Let left_ : forall x, L - s / 2 < x < L - d / 2 -> f x = 1 / (s1 * s2) * x + (s / 2) / (s1 * s2).
  Proof.
    intros x H. unfold f, overlap, flank. fold d. fold s. assert (Q : x - l1 - l2 = x - L) by (unfold L; ring). rewrite Q.
    destruct (Rlt_dec (x - L) (- s / 2)); [lra|]. destruct (Rlt_dec (x - L) (- d / 2)); [|lra].
    assert (K : (x - L) + s2 / 2 <= s1 / 2 /\ (x - L) - s2 / 2 <= - s1 / 2) by (unfold d, Rabs in H; destruct (Rcase_abs (s1 - s2)); lra).
    rewrite (Rmin_right (s1 / 2)), (Rmax_left (- s1 / 2)) by lra. rewrite Rmax_right by (unfold s in H; lra). unfold s, L. field. lra.
  Qed.
  Let right_ : forall x, L + d / 2 < x < L + s / 2 -> f x = - (1 / (s1 * s2)) * x + (s / 2) / (s1 * s2).
  Proof.
    intros x H. unfold f, overlap, flank. fold d. fold s. assert (Q : x - l1 - l2 = x - L) by (unfold L; ring). rewrite Q.
    destruct (Rlt_dec (x - L) (- s / 2)); [lra|]. destruct (Rlt_dec (x - L) (- d / 2)); [lra|]. destruct (Rlt_dec (x - L) (d / 2)); [lra|]. destruct (Rlt_dec (x - L) (s / 2)); [|lra].
    assert (K : s1 / 2 <= (x - L) + s2 / 2 /\ - s1 / 2 <= (x - L) - s2 / 2) by (unfold d, Rabs in H; destruct (Rcase_abs (s1 - s2)); lra).
    rewrite (Rmin_left (s1 / 2)), (Rmax_right (- s1 / 2)) by lra. rewrite Rmax_right by (unfold s in H; lra). unfold s, L. field. lra.
  Qed.
  Let middle : forall x, L - d / 2 < x < L + d / 2 -> f x = 0 * x + 2 / (s + d).
  Proof.
    intros x H. assert (K := c59_plateau x l1 s1 l2 s2 P1 P2). rewrite (sum_computes x) in K.
    assert (E : Fin (f x) = Fin (/ Rmax s1 s2)).
    { apply K. fold d. unfold L in H. unfold Rabs at 1. destruct (Rcase_abs (x - l1 - l2)); lra. }
    injection E as E. rewrite E. assert (M := max_of_abs s1 s2). fold d in M. fold s in M. replace (Rmax s1 s2) with ((s + d) / 2) by lra. field. lra.
  Qed.
  Lemma pieces : forall (I : (R -> R) -> R -> R -> R -> Prop),
    (forall g p q r u v, I g p q u -> I g q r v -> I g p r (u + v)) ->
    forall u1 u2 u3 a b, I f a (L - s / 2) 0 -> I f (L - s / 2) (L - d / 2) u1 -> I f (L - d / 2) (L + d / 2) u2 -> I f (L + d / 2) (L + s / 2) u3 -> I f (L + s / 2) b 0 ->
    I f a b (0 + u1 + u2 + u3 + 0).
  Proof. intros I HI u1 u2 u3 a b H0 H1 H2 H3 H4. repeat (eapply HI; [|eassumption]). exact H0. Qed.
  Lemma sum_mass : mass f (L - s / 2) (L + s / 2) 1.
  Proof.
    split; [exact out|]. intros a b Ha Hb.
    assert (Z0 := int_affine f a (L - s / 2) 0 0 Ha ltac:(intros x Hx; rewrite out by lra; ring)).
    assert (Z1 := int_affine f (L + s / 2) b 0 0 Hb ltac:(intros x Hx; rewrite out by lra; ring)).
    assert (I1 := int_affine f (L - s / 2) (L - d / 2) _ _ ltac:(lra) left_). assert (I2 := int_affine f (L - d / 2) (L + d / 2) _ _ ltac:(lra) middle). assert (I3 := int_affine f (L + d / 2) (L + s / 2) _ _ ltac:(lra) right_).
    match type of Z0 with is_RInt _ _ _ ?v => replace v with 0 in Z0 by field end. match type of Z1 with is_RInt _ _ _ ?v => replace v with 0 in Z1 by field end.
    assert (K := pieces (fun g p q u => is_RInt g p q u) (fun g p q r u v H1 H2 => is_RInt_Chasles g p q r u v H1 H2) _ _ _ _ _ Z0 I1 I2 I3 Z1).
    cbv beta in K. match type of K with is_RInt _ _ _ ?v => replace v with 1 in K; [exact K|] end.
    rewrite SS. field. split; lra.
  Qed.
  Lemma sum_moment : first_moment f (L - s / 2) (L + s / 2) 0.
  Proof.
    split; [intros x Hx; rewrite out by exact Hx; ring|]. intros a b Ha Hb.
    assert (Z0 := int_moment f a (L - s / 2) 0 0 Ha ltac:(intros x Hx; rewrite out by lra; ring)).
    assert (Z1 := int_moment f (L + s / 2) b 0 0 Hb ltac:(intros x Hx; rewrite out by lra; ring)).
    assert (I1 := int_moment f (L - s / 2) (L - d / 2) _ _ ltac:(lra) left_). assert (I2 := int_moment f (L - d / 2) (L + d / 2) _ _ ltac:(lra) middle). assert (I3 := int_moment f (L + d / 2) (L + s / 2) _ _ ltac:(lra) right_).
    match type of Z0 with is_RInt _ _ _ ?v => replace v with 0 in Z0 by field end. match type of Z1 with is_RInt _ _ _ ?v => replace v with 0 in Z1 by field end.
    assert (K := pieces (fun g p q u => is_RInt (fun x => x * g x) p q u) (fun g p q r u v H1 H2 => is_RInt_Chasles _ p q r u v H1 H2) _ _ _ _ _ Z0 I1 I2 I3 Z1).
    cbv beta in K. match type of K with is_RInt _ _ _ ?v => replace v with 0 in K; [exact K|] end.
    rewrite SS. field. split; lra.
  Qed.
  Lemma sum_second : second_moment f (L - s / 2) (L + s / 2) ((s1 * s1 + s2 * s2) / 12 - L * L).
  Proof.
    split; [intros x Hx; rewrite out by exact Hx; ring|]. intros a b Ha Hb.
    assert (Z0 := int_second f a (L - s / 2) 0 0 Ha ltac:(intros x Hx; rewrite out by lra; ring)).
    assert (Z1 := int_second f (L + s / 2) b 0 0 Hb ltac:(intros x Hx; rewrite out by lra; ring)).
    assert (I1 := int_second f (L - s / 2) (L - d / 2) _ _ ltac:(lra) left_). assert (I2 := int_second f (L - d / 2) (L + d / 2) _ _ ltac:(lra) middle). assert (I3 := int_second f (L + d / 2) (L + s / 2) _ _ ltac:(lra) right_).
    match type of Z0 with is_RInt _ _ _ ?v => replace v with 0 in Z0 by field end. match type of Z1 with is_RInt _ _ _ ?v => replace v with 0 in Z1 by field end.
    assert (K := pieces (fun g p q u => is_RInt (fun x => x * x * g x) p q u) (fun g p q r u v H1 H2 => is_RInt_Chasles _ p q r u v H1 H2) _ _ _ _ _ Z0 I1 I2 I3 Z1).
    cbv beta in K. match type of K with is_RInt _ _ _ ?v => replace ((s1 * s1 + s2 * s2) / 12 - L * L) with v; [exact K|] end.
    replace (s1 * s1 + s2 * s2) with (s * s - 2 * (s1 * s2)) by (unfold s; ring).
    rewrite SS. field. split; lra.
  Qed.
  (** The overlap is the convolution of the two boxes. *)
  Lemma sum_convolved : forall x, convolved (box l1 s1) (box l2 s2) (l1 - s1 / 2) (l1 + s1 / 2) x (overlap s1 s2 (x - l1 - l2)).
  Proof.
    intros x. set (z := x - l1 - l2). split.
    { intros t H. unfold box at 1. destruct (Rlt_dec _ _) as [K|K]; [|ring]. unfold Rabs in K. destruct (Rcase_abs (t - l1)); lra. }
    intros a b Ha Hb. set (g := fun t => box l1 s1 t * box l2 s2 (x - t)).
    (* the interval on which both are positive, put inside that of the first *)
    set (lo := Rmax (l1 - s1 / 2) (x - l2 - s2 / 2)). set (hi := Rmin (l1 + s1 / 2) (x - l2 + s2 / 2)).
    assert (In_ : forall t, lo < t < hi -> g t = / (s1 * s2)).
    { intros t (H1 & H2). unfold g. unfold lo in H1. unfold hi in H2. apply Rmax_Rlt in H1. apply Rmin_Rgt_l in H2. unfold box.
      destruct (Rlt_dec (Rabs (t - l1)) (s1 / 2)) as [K|K]; [|exfalso; apply K; apply Rabs_def1; lra].
      destruct (Rlt_dec (Rabs (x - t - l2)) (s2 / 2)) as [K'|K']; [|exfalso; apply K'; apply Rabs_def1; lra]. field. lra. }
    assert (Out_ : forall t, t < lo \/ hi < t -> g t = 0).
    { intros t H. unfold g. unfold box. destruct (Rlt_dec (Rabs (t - l1)) (s1 / 2)) as [K|K]; [|ring].
      destruct (Rlt_dec (Rabs (x - t - l2)) (s2 / 2)) as [K'|K']; [|ring]. exfalso. apply Rabs_def2 in K. apply Rabs_def2 in K'.
      destruct H as [H|H]; [|]; unfold lo, hi, Rmax, Rmin in H; destruct (Rle_dec _ _); lra. }
    assert (OV : overlap s1 s2 z = Rmax 0 (hi - lo) / (s1 * s2)).
    { unfold overlap. f_equal. f_equal. unfold hi, lo, z, Rmin, Rmax. repeat destruct (Rle_dec _ _); lra. }
    rewrite OV. destruct (Rle_lt_dec hi lo) as [E|E].
    - rewrite Rmax_left by lra. replace (0 / (s1 * s2)) with (0 * (b * b - a * a) / 2 + 0 * (b - a)) by (field; lra).
      assert (AB : a <= b) by lra. set (c := Rmin b (Rmax a lo)).
      assert (Hc : a <= c <= b) by (unfold c, Rmin, Rmax; repeat destruct (Rle_dec _ _); lra).
      assert (G : forall t, t <> lo -> g t = 0) by (intros t Ht; apply Out_; destruct (Rtotal_order t lo) as [K|[K|K]]; [left; exact K|contradiction|right; lra]).
      assert (C : forall t, a < t < c -> t <> lo) by (intros t Ht; unfold c, Rmin, Rmax in Ht; repeat destruct (Rle_dec _ _); lra).
      assert (C' : forall t, c < t < b -> t <> lo) by (intros t Ht; unfold c, Rmin, Rmax in Ht; repeat destruct (Rle_dec _ _); lra).
      assert (I1 := int_affine g a c 0 0 ltac:(lra) ltac:(intros t Ht; rewrite G by (apply C; exact Ht); ring)).
      assert (I2 := int_affine g c b 0 0 ltac:(lra) ltac:(intros t Ht; rewrite G by (apply C'; exact Ht); ring)).
      assert (K := is_RInt_Chasles _ _ _ _ _ _ I1 I2). match type of K with is_RInt _ _ _ ?v => replace (0 * (b * b - a * a) / 2 + 0 * (b - a)) with v; [exact K|] end.
      unfold plus; cbn. field.
    - rewrite Rmax_right by lra.
      assert (Hlo : a <= lo) by (unfold lo; apply Rle_trans with (l1 - s1 / 2); [exact Ha|apply Rmax_l]).
      assert (Hhi : hi <= b) by (unfold hi; apply Rle_trans with (l1 + s1 / 2); [apply Rmin_l|exact Hb]).
      assert (I0 := int_affine g a lo 0 0 Hlo ltac:(intros t Ht; rewrite Out_ by lra; ring)).
      assert (I1 := int_affine g lo hi 0 (/ (s1 * s2)) ltac:(lra) ltac:(intros t Ht; rewrite In_ by lra; ring)).
      assert (I2 := int_affine g hi b 0 0 Hhi ltac:(intros t Ht; rewrite Out_ by lra; ring)).
      assert (K := is_RInt_Chasles _ _ _ _ _ _ (is_RInt_Chasles _ _ _ _ _ _ I0 I1) I2). match type of K with is_RInt _ _ _ ?v => replace ((hi - lo) / (s1 * s2)) with v; [exact K|] end.
      unfold plus; cbn. field. lra.
  Qed.
End Sum.

Lemma c137_mass : forall l1 s1 l2 s2, 0 < s1 -> 0 < s2 -> exists f,
  computes (fun x => convolution_of_two_uniforms x (Fin l1) (Fin s1) (Fin l2) (Fin s2)) f /\
  mass f (l1 + l2 - (s1 + s2) / 2) (l1 + l2 + (s1 + s2) / 2) 1 /\ first_moment f (l1 + l2 - (s1 + s2) / 2) (l1 + l2 + (s1 + s2) / 2) 0.
Proof. intros l1 s1 l2 s2 P1 P2. eexists. split; [exact (sum_computes l1 s1 l2 s2 P1 P2)|]. split; [exact (sum_mass l1 s1 l2 s2 P1 P2)|exact (sum_moment l1 s1 l2 s2 P1 P2)]. Qed.
Lemma c137_second : forall l1 s1 l2 s2, 0 < s1 -> 0 < s2 -> forall f, computes (fun x => convolution_of_two_uniforms x (Fin l1) (Fin s1) (Fin l2) (Fin s2)) f ->
  second_moment f (l1 + l2 - (s1 + s2) / 2) (l1 + l2 + (s1 + s2) / 2) ((s1 * s1 + s2 * s2) / 12 - (l1 + l2) * (l1 + l2)).
Proof.
  intros l1 s1 l2 s2 P1 P2 f HF. assert (G := sum_computes l1 s1 l2 s2 P1 P2). destruct (sum_second l1 s1 l2 s2 P1 P2) as (Z & I).
  assert (E : forall x, f x = overlap s1 s2 (x - l1 - l2) + flank s1 s2 (x - l1 - l2) * (l1 + l2) / (s1 * s2)) by (intro x; specialize (HF x); specialize (G x); cbv beta in HF, G; rewrite HF in G; injection G as G; exact G).
  split; [intros x Hx; rewrite E; exact (Z x Hx)|]. intros a b Ha Hb. eapply is_RInt_ext; [|exact (I a b Ha Hb)]. intros x _. cbv beta. rewrite E. reflexivity.
Qed.
Lemma moment_unique : forall f lo hi m m', lo <= hi -> first_moment f lo hi m -> first_moment f lo hi m' -> m = m'.
Proof.
  intros f lo hi m m' _ (_ & H) (_ & H'). rewrite <- (is_RInt_unique _ _ _ _ (H lo hi ltac:(lra) ltac:(lra))). exact (is_RInt_unique _ _ _ _ (H' lo hi ltac:(lra) ltac:(lra))).
Qed.
Lemma c137_mean_off : forall l1 s1 l2 s2 f, 0 < s1 -> 0 < s2 -> l1 + l2 <> 0 ->
  computes (fun x => convolution_of_two_uniforms x (Fin l1) (Fin s1) (Fin l2) (Fin s2)) f ->
  ~ first_moment f (l1 + l2 - (s1 + s2) / 2) (l1 + l2 + (s1 + s2) / 2) (l1 + l2).
Proof.
  intros l1 s1 l2 s2 f P1 P2 HL HF H. destruct (c137_mass l1 s1 l2 s2 P1 P2) as (g & HG & _ & M).
  apply HL. apply (moment_unique f (l1 + l2 - (s1 + s2) / 2) (l1 + l2 + (s1 + s2) / 2)); [lra|exact H|].
  destruct M as (M0 & M1). assert (E : forall x, f x = g x).
  { intro x. assert (K : Fin (f x) = Fin (g x)) by (rewrite <- (HF x); exact (HG x)). injection K as K. exact K. }
  split; [intros x Hx; rewrite E; exact (M0 x Hx)|]. intros a b Ha Hb. apply (is_RInt_ext (fun x => x * g x)); [intros x _; rewrite E; reflexivity|exact (M1 a b Ha Hb)].
Qed.
Lemma c137_density : forall x l1 s1 l2 s2, 0 < s1 -> 0 < s2 -> l1 + l2 = 0 -> exists v,
  convolution_of_two_uniforms (Fin x) (Fin l1) (Fin s1) (Fin l2) (Fin s2) = Fin v /\
  convolved (box l1 s1) (box l2 s2) (l1 - s1 / 2) (l1 + s1 / 2) x v.
Proof. intros x l1 s1 l2 s2 P1 P2 HL. eexists. split; [exact (proj1 (c59_centred x l1 s1 l2 s2 P1 P2 HL))|]. apply sum_convolved; assumption. Qed.
