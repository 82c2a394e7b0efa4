(** The uncertainty of the paired comparison models: the matrix handed to the
    pseudo-inverse and the standard deviations read from its result. *)
From Coq Require Import List ZArith Bool Arith Reals Lia Lra Permutation.
From Verif Require Import PyBase Num ExtReal ExtRealProofs NumPy ArrayProofs SpecMos PairedComp SpecBt BtProofs Bt2Proofs Bt3Proofs Bt4Proofs.
Import ListNotations.
Local Open Scope list_scope.
Local Open Scope R_scope.

Lemma bordered_border : forall m f, ones_border m (bordered m f).
Proof.
  intros m f. unfold ones_border, bordered, mat. cbn [n0 n1 at2]. rewrite Nat.ltb_irrefl. repeat split; try reflexivity.
  all: apply Nat.ltb_lt in H; rewrite H; reflexivity.
Qed.
Lemma bordered_in : forall m (f : nat -> nat -> ef) i k, (i < m)%nat -> (k < m)%nat -> at2 (bordered m f) i k = ef_neg (f i k).
Proof. intros m f i k Hi Hk. unfold bordered, mat. cbn [at2]. apply Nat.ltb_lt in Hi, Hk. rewrite Hi, Hk. reflexivity. Qed.

Lemma c50_result : forall pinv fuel a m w r, counts a m w -> nonneg_counts m w -> each_won m w -> no_self m w ->
  bt_resolve pinv fuel a = Ok r ->
  exists p x c, probabilities m p /\ bt_p r = vec m p /\ pinv x = Ok c /\ ones_border m x /\
    (forall i k, (i < m)%nat -> (k < m)%nat -> exists h, at2 x i k = Fin (- h) /\
       (second_partial (positive m) (bt_likelihood m w) i k p h <-> i = k \/ games w i k = 0 \/ p i + p k = 1 / 2)) /\
    forall i, (i < m)%nat -> vat (bt_p_std r) i = nsqrt (at2 c i i) /\ vat (bt_v_std r) i = ndiv (nsqrt (at2 c i i)) (Fin (p i)) /\
      vat (bt_ci r) i = nmul (Fin (195996 / 100000)) (vat (bt_v_std r) i) /\
      forall k, (k < m)%nat -> at2 (bt_p_cov r) i k = at2 c i k /\ at2 (bt_v_cov r) i k = ndiv (at2 c i k) (Fin (p i * p k)).
Proof.
  intros pinv fuel a m w r Ha Hw He Hn H. assert (E0 := proj1 Ha). assert (E1 := proj1 (proj2 Ha)). unfold bt_resolve in H.
  rewrite E0, E1, Nat.eqb_refl in H. cbn [assert_ bind] in H. destruct (Nat.eqb_spec m 0) as [Z|Z]; [discriminate|].
  assert (Hm : (0 < m)%nat) by lia. rewrite (bt_start_eq m Hm) in H.
  destruct (bt_loop_spec fuel a m w _ Hm Ha Hw He (start_prob m Hm)) as [D|(p & q & Hp & _ & E & _)]; [rewrite D in H; discriminate|].
  rewrite E in H. cbn [bind] in H. destruct (pinv _) as [c|e] eqn:P; cbn [bind] in H; [|discriminate].
  assert (Q : forall x y : bt_result ef, Ok x = Ok y -> x = y) by (intros x y E'; injection E'; auto). apply Q in H. subst r.
  exists p, (bordered m (bt_lbda a (vec m p))), c. split; [exact Hp|]. split; [reflexivity|]. split; [exact P|]. split; [apply bordered_border|]. split.
  - intros i k Hi Hk. destruct (bt_hessian a m w p i k Ha Hn (proj1 Hp) Hi Hk) as (h & Eh & I). exists h. split; [|exact I].
    rewrite bordered_in by assumption. rewrite Eh. reflexivity.
  - intros i Hi. unfold bt_ci. cbn [bt_p_std bt_v_std bt_p_cov bt_v_cov].
    assert (S1 : vat (sqrt_diagonal m c) i = nsqrt (at2 c i i)) by (unfold sqrt_diagonal; apply vat_map_seq, Hi).
    assert (S2 : vat (map (fun i => ndiv (vat (sqrt_diagonal m c) i) (vat (vec m p) i)) (seq 0 m)) i = ndiv (nsqrt (at2 c i i)) (Fin (p i))).
    { rewrite vat_map_seq by exact Hi. rewrite S1, vat_vec by exact Hi. reflexivity. }
    split; [exact S1|]. split; [exact S2|]. split.
    + rewrite map_map. rewrite (vat_map_seq (fun x => pc_ci (ndiv (vat (sqrt_diagonal m c) x) (vat (vec m p) x)))) by exact Hi.
      rewrite S2, S1, vat_vec by exact Hi. unfold pc_ci. rewrite ndec_ef by lia. reflexivity.
    + intros k Hk. unfold cropped, mat. cbn [at2]. rewrite !vat_vec by assumption. split; reflexivity.
Qed.

Section Th.
  Variables (F : R -> R) (cdf : ef -> ef).
  Hypothesis HF : normal_cdf F.
  Hypothesis HC : computes cdf F.

  Lemma c52_result : forall slsqp pinv b a m w v r, counts a m w ->
    snd (slsqp (th_nll cdf a) (map (fun _ => nzero) (seq 0 m))) = vec m v ->
    th_resolve cdf slsqp pinv b a = Ok r ->
    th_v r = vec m v /\ exists x c, pinv x = Ok c /\ ones_border m x /\
      (forall i k, (i < m)%nat -> (k < m)%nat -> i <> k -> exists h, at2 x i k = Fin (- h) /\
         (second_partial (fun _ => True) (th_likelihood F m w) i k v h <-> w k i = 0 \/ curvature F (v i - v k) = curvature F (v k - v i))) /\
      forall i, (i < m)%nat -> vat (th_std r) i = nsqrt (at2 c i i) /\ forall k, (k < m)%nat -> at2 (th_cov r) i k = at2 c i k.
  Proof.
    intros slsqp pinv b a m w v r Ha E H. assert (E0 := proj1 Ha). assert (E1 := proj1 (proj2 Ha)). unfold th_resolve in H.
    rewrite E0, E1, Nat.eqb_refl in H. cbn [assert_ bind] in H. destruct (Nat.eqb_spec m 0) as [Z|Z]; [discriminate|].
    destruct (fst _); cbn [assert_ bind] in H; [|discriminate]. rewrite E in H.
    destruct (pinv _) as [c|e] eqn:P; cbn [bind] in H; [|discriminate].
    assert (Q : forall x y : th_result ef, Ok x = Ok y -> x = y) by (intros x y E'; injection E'; auto). apply Q in H. subst r.
    split; [reflexivity|]. exists (bordered m (th_lbda cdf b a (vec m v))), c. split; [exact P|]. split; [apply bordered_border|]. split.
    - intros i k Hi Hk N. destruct (th_entry F cdf HF HC b a m w v i k Ha Hi Hk N) as (h & Eh & I). exists h. split; [|exact I].
      rewrite bordered_in by assumption. rewrite Eh. reflexivity.
    - intros i Hi. split; [unfold sqrt_diagonal; cbn [th_std]; apply vat_map_seq, Hi|]. intros k Hk. reflexivity.
  Qed.
End Th.

Section Relabel.
  Variables (m : nat) (s : nat -> nat) (a b : arr2 ef).
  Hypothesis P : permutes m s.
  Hypothesis A0 : n0 a = m.
  Hypothesis A1 : n1 a = m.
  Hypothesis R : relabelled_counts s a b.

  Lemma th_lbda_relabel : forall cdf simp v u i j, relabelled m s v u -> (i < m)%nat -> (j < m)%nat ->
    th_lbda cdf simp b u i j = th_lbda cdf simp a v (s i) (s j).
  Proof.
    intros cdf simp v u i j H Hi Hj.
    assert (B : forall i j, (i < m)%nat -> (j < m)%nat -> at2 b i j = at2 a (s i) (s j)) by (intros; apply (b_at m s a b); assumption).
    assert (T : forall i j, (i < m)%nat -> (j < m)%nat ->
      (if simp then th_simple cdf b u else th_full cdf b u) i j = (if simp then th_simple cdf a v else th_full cdf a v) (s i) (s j)).
    { intros k l Hk Hl. destruct simp; [unfold th_simple, played|unfold th_full]; unfold th_d; rewrite !B, !(relabelled_vat m s v u) by assumption; reflexivity. }
    unfold th_lbda. rewrite T by assumption. f_equal. apply (diag_relabel m s P); [|assumption|assumption].
    intros k Hk. destruct R as (_ & E1 & _). rewrite E1, A1.
    apply (sum_relabel_ext m s _ (fun l => (if simp then th_simple cdf a v else th_full cdf a v) (s k) l) P). intros l Hl. apply T; assumption.
  Qed.
  Lemma th_resolve_relabel : forall cdf slsqp pinv simp, equivariant m s pinv ->
    fst (slsqp (th_nll cdf b) (map (fun _ => nzero) (seq 0 m))) = fst (slsqp (th_nll cdf a) (map (fun _ => nzero) (seq 0 m))) ->
    relabelled m s (snd (slsqp (th_nll cdf a) (map (fun _ => nzero) (seq 0 m)))) (snd (slsqp (th_nll cdf b) (map (fun _ => nzero) (seq 0 m)))) ->
    same_outcome (fun r r' => relabelled m s (th_v r) (th_v r') /\ relabelled m s (th_std r) (th_std r') /\
      forall i j, (i < m)%nat -> (j < m)%nat -> at2 (th_cov r') i j = at2 (th_cov r) (s i) (s j))
      (th_resolve cdf slsqp pinv simp a) (th_resolve cdf slsqp pinv simp b).
  Proof.
    intros cdf slsqp pinv simp Hq Hf Hs. unfold th_resolve. destruct R as (E0 & E1 & _). rewrite E0, E1, A0, A1, Nat.eqb_refl. cbn [assert_ bind].
    destruct (Nat.eqb m 0); [exact eq_refl|]. rewrite Hf. destruct (fst (slsqp (th_nll cdf a) _)); cbn [assert_ bind]; [|exact eq_refl].
    set (v := snd (slsqp (th_nll cdf a) _)) in *. set (u := snd (slsqp (th_nll cdf b) _)) in *.
    assert (Q := Hq (bordered m (th_lbda cdf simp a v)) (bordered m (th_lbda cdf simp b u)) eq_refl eq_refl
      (bordered_relabel m s a P A0 A1 _ _ (fun i j Hi Hj => th_lbda_relabel cdf simp v u i j Hs Hi Hj))).
    destruct (pinv (bordered m (th_lbda cdf simp a v))) as [c|e], (pinv (bordered m (th_lbda cdf simp b u))) as [c'|e']; cbn [bind same_outcome] in *; try contradiction; [|exact Q].
    cbn [th_v th_std th_cov]. split; [exact Hs|]. split; [apply (sqrt_diag_relabel m s a P A0 A1); assumption|].
    intros i j Hi Hj. destruct Q as (_ & _ & Q). unfold cropped, mat. cbn [at2]. rewrite Q by lia. rewrite !(keep_lt m s a A0 A1) by assumption. reflexivity.
  Qed.
End Relabel.

Lemma c47_run : forall pinv fuel (a : arr3 ef) m r, dE a = m -> dS a = m -> finite_votes a ->
  nonneg_counts m (preferences a) -> each_won m (preferences a) -> bt_run pinv fuel a = Ok r ->
  exists p, probabilities m p /\ bt_p r = vec m p /\ bt_v r = vec m (fun i => ln (p i)).
Proof.
  intros pinv fuel a m r E S H Hw He Hr. apply (c47_result pinv fuel (win_matrix a) m (preferences a)); try assumption. apply win_counts; assumption.
Qed.
