(** Maximum likelihood models: the steps are Newton steps on the likelihood the
    model reports. *)
From Coq Require Import List ZArith Bool Arith Reals Lra Lia.
From Verif Require Import PyBase Num ExtReal NumPy Mos AP Mle SpecMos SpecAp SpecMle
  BaseProofs ExtRealProofs ArrayProofs ApProofs MosProofs Ap2Proofs MleProofs Mle2Proofs.
Import ListNotations.
Local Open Scope list_scope.
Local Open Scope R_scope.

Lemma set_at_same : forall f i t, set_at f i t i = t.
Proof. intros. unfold set_at. rewrite Nat.eqb_refl. reflexivity. Qed.
Lemma set_at_other : forall f i t j, j <> i -> set_at f i t j = f j.
Proof. intros. unfold set_at. apply Nat.eqb_neq in H. rewrite H. reflexivity. Qed.
Lemma tsum_ext : forall x f g, (forall e i r w, inside x e i r -> at3 x e i r = Fin w -> f e i w = g e i w) -> tsum x f = tsum x g.
Proof.
  intros x f g H. apply Rsum_map_ext. intros e He. apply in_seq in He. apply vsum_ext. intros i r w Hi Hr E. apply (H e i r w); [|exact E].
  repeat split; lia.
Qed.

Section Newton.
  Variables (x : arr3 ef) (cids : list nat) (C : nat) (p : params) (q b v a : list ef).
  Hypothesis (HF : finite_votes x) (HC : fits x cids C) (HH : holds x cids C p q b v a) (HR : regular x (cid_of cids) p).
  Let cid := cid_of cids.

  Lemma newton_b_original : forall i, (i < dS x)%nat -> voted x i ->
    newton_step (fun t => log_lik x cid (with_b p i t)) (pb p i) (nth i (fst (b_original x cids q b v a)) NaN) (nth i (snd (b_original x cids q b v a)) NaN).
  Proof.
    intros i Hi V.
    exists (fun t => tsum x (fun e j w => if Nat.eqb j i then (w - (pq p e + t)) / variance cid p e j else 0)), (- Db x cids p i).
    assert (E1 : tsum x (fun e j w => if Nat.eqb j i then (w - (pq p e + pb p i)) / variance cid p e j else 0) = Nb x cids p i - pb p i * Db x cids p i).
    { rewrite (tsum_subject x i (fun e j w => (w - (pq p e + pb p i)) / variance cid p e j)) by exact Hi.
      rewrite <- order1_b. apply ssum_ext. intros. f_equal. ring. }
    assert (E2 : tsum x (fun e j w => if Nat.eqb j i then -1 / variance cid p e j else 0) = - Db x cids p i).
    { rewrite (tsum_subject x i (fun e j w => -1 / variance cid p e j)) by exact Hi. apply order2_b. }
    split; [|split; [|split]].
    - exists 1. split; [lra|]. intros t _. unfold log_lik.
      apply (d_tsum x (fun t e j w => log_density w (pq p e + set_at (pb p) i t j) (sqrt (variance cid p e j)))).
      intros e j r w HI E. destruct (Nat.eqb j i) eqn:Eq.
      + apply Nat.eqb_eq in Eq. subst j. apply (d_ext (fun t => log_density w (pq p e + t) (sqrt (variance cid p e i)))); [intro; rewrite set_at_same; reflexivity|].
        apply (d_val _ _ ((w - (pq p e + t)) / variance cid p e i * (0 + 1))); [ring|].
        apply (d_comp (fun t => pq p e + t) (fun m => log_density w m (sqrt (variance cid p e i)))).
        * apply d_add; [apply d_const|apply d_id].
        * apply d_mean. exact (HR e i r w HI E).
      + apply Nat.eqb_neq in Eq. apply (d_ext (fun t => log_density w (pq p e + pb p j) (sqrt (variance cid p e j)))); [intro; rewrite set_at_other by exact Eq; reflexivity|].
        apply d_const.
    - rewrite <- E2. apply (d_tsum x (fun t e j w => if Nat.eqb j i then (w - (pq p e + t)) / variance cid p e j else 0)).
      intros e j r w HI E. assert (P := HR e j r w HI E). fold cid in P. destruct (Nat.eqb j i) eqn:Eq; [|apply d_const].
      apply (d_val _ _ (((0 - (0 + 1)) * variance cid p e j - 0 * (w - (pq p e + pb p i))) / (variance cid p e j * variance cid p e j))); [field; lra|].
      apply (d_div (fun t => w - (pq p e + t)) (fun _ => variance cid p e j)); [|apply d_const|lra].
      apply d_sub; [apply d_const|]. apply d_add; [apply d_const|apply d_id].
    - rewrite (b_original_eq x cids C p q b v a HF HC HH HR). cbn [fst]. rewrite nth_map_seq by exact Hi.
      rewrite (h_b _ _ _ _ _ _ _ _ HH i Hi V). rewrite E1. reflexivity.
    - rewrite (b_original_eq x cids C p q b v a HF HC HH HR). cbn [snd]. rewrite nth_map_seq by exact Hi. f_equal. ring.
  Qed.
  Lemma newton_b_simplified : forall i, (i < dS x)%nat -> voted x i ->
    newton_step (fun t => log_lik x cid (with_b p i t)) (pb p i) (nth i (fst (b_simplified x cids q b v a)) NaN) (nth i (snd (b_simplified x cids q b v a)) NaN).
  Proof. intros i Hi V. rewrite (b_agree x cids C p q b v a HF HC HH HR). apply newton_b_original; assumption. Qed.

  Lemma newton_x_original : forall i, (i < dE x)%nat -> rated x i ->
    newton_step (fun t => log_lik x cid (with_q p i t)) (pq p i) (nth i (fst (x_original x cids q b v a)) NaN) (nth i (snd (x_original x cids q b v a)) NaN).
  Proof.
    intros i Hi V.
    exists (fun t => tsum x (fun e j w => if Nat.eqb e i then (w - (t + pb p j)) / variance cid p e j else 0)), (- Dx x cids p i).
    assert (E1 : tsum x (fun e j w => if Nat.eqb e i then (w - (pq p i + pb p j)) / variance cid p e j else 0) = Nx x cids p i - pq p i * Dx x cids p i).
    { rewrite (tsum_video x i (fun e j w => (w - (pq p i + pb p j)) / variance cid p e j)) by exact Hi.
      rewrite <- order1_x. apply vsum_ext. intros. f_equal. ring. }
    assert (E2 : tsum x (fun e j w => if Nat.eqb e i then -1 / variance cid p e j else 0) = - Dx x cids p i).
    { rewrite (tsum_video x i (fun e j w => -1 / variance cid p e j)) by exact Hi. apply order2_x. }
    split; [|split; [|split]].
    - exists 1. split; [lra|]. intros t _. unfold log_lik.
      apply (d_tsum x (fun t e j w => log_density w (set_at (pq p) i t e + pb p j) (sqrt (variance cid p e j)))).
      intros e j r w HI E. destruct (Nat.eqb e i) eqn:Eq.
      + apply Nat.eqb_eq in Eq. subst e. apply (d_ext (fun t => log_density w (t + pb p j) (sqrt (variance cid p i j)))); [intro; rewrite set_at_same; reflexivity|].
        apply (d_val _ _ ((w - (t + pb p j)) / variance cid p i j * (1 + 0))); [ring|].
        apply (d_comp (fun t => t + pb p j) (fun m => log_density w m (sqrt (variance cid p i j)))).
        * apply d_add; [apply d_id|apply d_const].
        * apply d_mean. exact (HR i j r w HI E).
      + apply Nat.eqb_neq in Eq. apply (d_ext (fun t => log_density w (pq p e + pb p j) (sqrt (variance cid p e j)))); [intro; rewrite set_at_other by exact Eq; reflexivity|].
        apply d_const.
    - rewrite <- E2. apply (d_tsum x (fun t e j w => if Nat.eqb e i then (w - (t + pb p j)) / variance cid p e j else 0)).
      intros e j r w HI E. assert (P := HR e j r w HI E). fold cid in P. destruct (Nat.eqb e i) eqn:Eq; [|apply d_const].
      apply (d_val _ _ (((0 - (1 + 0)) * variance cid p e j - 0 * (w - (pq p i + pb p j))) / (variance cid p e j * variance cid p e j))); [field; lra|].
      apply (d_div (fun t => w - (t + pb p j)) (fun _ => variance cid p e j)); [|apply d_const|lra].
      apply d_sub; [apply d_const|]. apply d_add; [apply d_id|apply d_const].
    - rewrite (x_original_eq x cids C p q b v a HF HC HH HR). cbn [fst]. rewrite nth_map_seq by exact Hi.
      rewrite (h_q _ _ _ _ _ _ _ _ HH i Hi V). rewrite E1. reflexivity.
    - rewrite (x_original_eq x cids C p q b v a HF HC HH HR). cbn [snd]. rewrite nth_map_seq by exact Hi. f_equal. ring.
  Qed.
  Lemma newton_x_simplified : forall i, (i < dE x)%nat -> rated x i ->
    newton_step (fun t => log_lik x cid (with_q p i t)) (pq p i) (nth i (fst (x_simplified x cids q b v a)) NaN) (nth i (snd (x_simplified x cids q b v a)) NaN).
  Proof. intros i Hi V. rewrite (x_agree x cids C p q b v a HF HC HH HR). apply newton_x_original; assumption. Qed.

  (** Around a scale where the variances are positive they stay positive. *)
  Lemma scale_window : forall t0, exists w, 0 < w /\ forall t k, Rabs (t - t0) < w -> 0 <= k -> 0 < t0 * t0 + k -> 0 < t * t + k.
  Proof.
    intro t0. destruct (Req_EM_T t0 0) as [->|N].
    - exists 1. split; [lra|]. intros t k _ Hk H. assert (0 <= t * t) by apply Rle_0_sqr. lra.
    - exists (Rabs t0). split; [apply Rabs_pos_lt; exact N|]. intros t k H Hk _.
      assert (t <> 0). { intros ->. replace (0 - t0) with (- t0) in H by ring. rewrite Rabs_Ropp in H. lra. }
      assert (0 < t * t) by (assert (G := Rsqr_pos_lt t H0); exact G). lra.
  Qed.

  Lemma newton_v : forall i, (i < dS x)%nat -> voted x i ->
    newton_step (fun t => log_lik x cid (with_v p i t)) (pv p i) (nth i (fst (v_simplified x cids q b v a)) NaN) (nth i (snd (v_simplified x cids q b v a)) NaN).
  Proof.
    intros i Hi V.
    exists (fun t => tsum x (fun e j w => if Nat.eqb j i then
        - t / (t * t + pa p (cid e) * pa p (cid e)) + t * ((w - (pq p e + pb p j)) * (w - (pq p e + pb p j))) / ((t * t + pa p (cid e) * pa p (cid e)) * (t * t + pa p (cid e) * pa p (cid e))) else 0)),
      (ssum x i (fun e w => rv2 cids p e i w)).
    assert (E2 : tsum x (fun e j w => if Nat.eqb j i then rv2 cids p e j w else 0) = ssum x i (fun e w => rv2 cids p e i w)).
    { apply (tsum_subject x i (fun e j w => rv2 cids p e j w)). exact Hi. }
    split; [|split; [|split]].
    - destruct (scale_window (pv p i)) as (d & Hd & W). exists d. split; [exact Hd|]. intros t Ht. unfold log_lik.
      apply (d_tsum x (fun t e j w => log_density w (pq p e + pb p j) (sqrt (variance cid (with_v p i t) e j)))).
      intros e j r w HI E. assert (P := HR e j r w HI E). unfold variance in P. fold cid in P. destruct (Nat.eqb j i) eqn:Eq.
      + apply Nat.eqb_eq in Eq. subst j.
        apply (d_ext (fun t => log_density w (pq p e + pb p i) (sqrt (t * t + pa p (cid e) * pa p (cid e))))).
        { intro z. unfold variance, with_v. cbn [pv pa]. rewrite set_at_same. reflexivity. }
        apply d_scale. apply W; [exact Ht|apply Rle_0_sqr|exact P].
      + apply Nat.eqb_neq in Eq. apply (d_ext (fun t => log_density w (pq p e + pb p j) (sqrt (variance cid p e j)))).
        { intro z. unfold variance, with_v. cbn [pv pa]. rewrite set_at_other by exact Eq. reflexivity. }
        apply d_const.
    - rewrite <- E2. apply (d_tsum x (fun t e j w => if Nat.eqb j i then
        - t / (t * t + pa p (cid e) * pa p (cid e)) + t * ((w - (pq p e + pb p j)) * (w - (pq p e + pb p j))) / ((t * t + pa p (cid e) * pa p (cid e)) * (t * t + pa p (cid e) * pa p (cid e))) else 0)).
      intros e j r w HI E. assert (P := HR e j r w HI E). unfold variance in P. fold cid in P. destruct (Nat.eqb j i) eqn:Eq; [|apply d_const].
      apply Nat.eqb_eq in Eq. subst j. eapply d_val; [|apply (d_scale2 ((w - (pq p e + pb p i)) * (w - (pq p e + pb p i))) (pa p (cid e) * pa p (cid e)) (pv p i)); exact P].
      unfold rv2, variance. cbv zeta. fold cid. field. lra.
    - rewrite (v_simplified_eq x cids C p q b v a HF HC HH HR). cbn [fst]. rewrite nth_map_seq by exact Hi.
      rewrite (h_v _ _ _ _ _ _ _ _ HH i Hi V). f_equal. f_equal. f_equal.
      rewrite (tsum_subject x i (fun e j w => - pv p i / (pv p i * pv p i + pa p (cid e) * pa p (cid e)) + pv p i * ((w - (pq p e + pb p j)) * (w - (pq p e + pb p j))) /
        ((pv p i * pv p i + pa p (cid e) * pa p (cid e)) * (pv p i * pv p i + pa p (cid e) * pa p (cid e))))) by exact Hi.
      apply ssum_ext. intros e r w He Hr E. unfold rv1, variance. fold cid.
      replace (w - (pq p e + pb p i)) with (w - pq p e - pb p i) by ring. reflexivity.
    - rewrite (v_simplified_eq x cids C p q b v a HF HC HH HR). cbn [snd]. rewrite nth_map_seq by exact Hi. reflexivity.
  Qed.

  Lemma newton_a : forall c, content_rated x cid c ->
    newton_step (fun t => log_lik x cid (with_a p c t)) (pa p c) (nth c (fst (a_simplified x cids C q b v a)) NaN) (nth c (snd (a_simplified x cids C q b v a)) NaN).
  Proof.
    intros c V.
    assert (Hc : (c < C)%nat).
    { destruct V as (e & He & <- & _). destruct HC as [L F]. rewrite Forall_forall in F. apply F. unfold cid, cid_of. apply nth_In. lia. }
    exists (fun t => tsum x (fun e j w => if Nat.eqb (cid e) c then
        - t / (t * t + pv p j * pv p j) + t * ((w - (pq p e + pb p j)) * (w - (pq p e + pb p j))) / ((t * t + pv p j * pv p j) * (t * t + pv p j * pv p j)) else 0)),
      (Rsum (map (fun e => if Nat.eqb (cid e) c then vsum x e (fun i w => ra2 cids p e i w) else 0) (seq 0 (dE x)))).
    assert (E2 : tsum x (fun e j w => if Nat.eqb (cid e) c then ra2 cids p e j w else 0) = Rsum (map (fun e => if Nat.eqb (cid e) c then vsum x e (fun i w => ra2 cids p e i w) else 0) (seq 0 (dE x)))).
    { apply (tsum_where x (fun e => Nat.eqb (cid e) c) (fun e j w => ra2 cids p e j w)). }
    split; [|split; [|split]].
    - destruct (scale_window (pa p c)) as (d & Hd & W). exists d. split; [exact Hd|]. intros t Ht. unfold log_lik.
      apply (d_tsum x (fun t e j w => log_density w (pq p e + pb p j) (sqrt (variance cid (with_a p c t) e j)))).
      intros e j r w HI E. assert (P := HR e j r w HI E). unfold variance in P. fold cid in P. destruct (Nat.eqb (cid e) c) eqn:Eq.
      + apply Nat.eqb_eq in Eq.
        apply (d_ext (fun t => log_density w (pq p e + pb p j) (sqrt (t * t + pv p j * pv p j)))).
        { intro z. unfold variance, with_a. cbn [pv pa]. rewrite Eq, set_at_same. f_equal. f_equal. ring. }
        apply d_scale. apply W; [exact Ht|apply Rle_0_sqr|]. rewrite Eq in P. lra.
      + apply Nat.eqb_neq in Eq. apply (d_ext (fun t => log_density w (pq p e + pb p j) (sqrt (variance cid p e j)))).
        { intro z. unfold variance, with_a. cbn [pv pa]. rewrite set_at_other by exact Eq. reflexivity. }
        apply d_const.
    - rewrite <- E2. apply (d_tsum x (fun t e j w => if Nat.eqb (cid e) c then
        - t / (t * t + pv p j * pv p j) + t * ((w - (pq p e + pb p j)) * (w - (pq p e + pb p j))) / ((t * t + pv p j * pv p j) * (t * t + pv p j * pv p j)) else 0)).
      intros e j r w HI E. assert (P := HR e j r w HI E). unfold variance in P. fold cid in P. destruct (Nat.eqb (cid e) c) eqn:Eq; [|apply d_const].
      apply Nat.eqb_eq in Eq. rewrite Eq in P. eapply d_val; [|apply (d_scale2 ((w - (pq p e + pb p j)) * (w - (pq p e + pb p j))) (pv p j * pv p j) (pa p c)); lra].
      unfold ra2, variance. cbv zeta. fold cid. rewrite Eq. field. lra.
    - rewrite (a_simplified_eq x cids C p q b v a HF HC HH HR). cbn [fst]. rewrite nth_map_seq by exact Hc. fold cid.
      rewrite (h_a _ _ _ _ _ _ _ _ HH c V). f_equal. f_equal. f_equal.
      rewrite (tsum_where x (fun e => Nat.eqb (cid e) c) (fun e j w => - pa p c / (pa p c * pa p c + pv p j * pv p j) + pa p c * ((w - (pq p e + pb p j)) * (w - (pq p e + pb p j))) /
        ((pa p c * pa p c + pv p j * pv p j) * (pa p c * pa p c + pv p j * pv p j)))).
      apply Rsum_map_ext. intros e _. destruct (Nat.eqb (cid e) c) eqn:Eq; [|reflexivity]. apply Nat.eqb_eq in Eq.
      apply vsum_ext. intros i r w He Hr E. unfold ra1, variance. fold cid. rewrite Eq.
      replace (w - (pq p e + pb p i)) with (w - pq p e - pb p i) by ring. rewrite (Rplus_comm (pv p i * pv p i)). reflexivity.
    - rewrite (a_simplified_eq x cids C p q b v a HF HC HH HR). cbn [snd]. rewrite nth_map_seq by exact Hc. reflexivity.
  Qed.

  (** The likelihood of the model is this log-likelihood. *)
  Lemma gaussian_Fin : forall w m s, 0 < s -> nln (gaussian (Fin w) (Fin m) (Fin s)) = Fin (log_density w m s).
  Proof.
    intros w m s Hs. unfold gaussian, none_, nsq. efc.
    assert (Hp : 0 < sqrt (2 * PI)) by (apply sqrt_lt_R0; assert (H := PI_RGT_0); lra).
    cbn [ef_mul]. rewrite ef_sqrt_Fin by (assert (H := PI_RGT_0); lra). rewrite ef_sub_Fin. cbn [ef_mul ef_neg].
    rewrite !ef_div_Fin by (try apply Rinv_neq_0_compat; try lra; assert (0 < s * s) by (apply Rmult_lt_0_compat; lra); lra).
    cbn [ef_exp ef_mul].
    set (y := - ((w - m) * (w - m)) / (2 * (s * s))). assert (G := exp_pos y).
    assert (G1 : 0 < 1 / sqrt (2 * PI)) by (apply Rdiv_lt_0_compat; lra).
    assert (G2 : 0 < 1 / sqrt (2 * PI) / s) by (apply Rdiv_lt_0_compat; lra).
    assert (G3 : 0 < 1 / sqrt (2 * PI) / s * exp y) by (apply Rmult_lt_0_compat; lra).
    unfold ef_ln. rewrite (proj2 (Rltb_false _ 0)) by lra. destruct (Req_EM_T _ 0) as [Q|_]; [lra|].
    f_equal. rewrite ln_mult by assumption. unfold Rdiv at 1. rewrite ln_mult by (first [exact G1|apply Rinv_0_lt_compat; exact Hs]).
    unfold Rdiv at 1. rewrite Rmult_1_l, !ln_Rinv by assumption. rewrite ln_exp. unfold log_density. fold y. ring.
  Qed.
  Lemma likelihood_is : exists l, ll_s GaussianPdf x q b v a cids = Ok l /\ np_sum l = Fin (log_lik x cid p).
  Proof.
    unfold ll_s, logpdf. cbv zeta. cbn [bind].
    set (y := map3 _ x).
    assert (D : derived x y (fun e i w => log_density w (pq p e + pb p i) (sqrt (variance cid p e i)))).
    { split; [reflexivity|split; [reflexivity|split; [reflexivity|]]]. intros e i r HI. unfold y. cbn [map3 at3]. assert (HN := HF e i r HI).
      destruct (at3 x e i r) as [w| | |] eqn:E; try contradiction.
      - rewrite (q_at x cids C p q b v a HH e i r w HI E), (b_at x cids C p q b v a HH e i r w HI E), (w_at x cids C p q b v a HC HH e i r w HI E). efc. cbn [ef_add].
        assert (P := HR e i r w HI E). rewrite ef_sqrt_Fin by (fold cid; fold cid in P; lra). apply gaussian_Fin. apply sqrt_lt_R0. exact P.
      - apply ln_gaussian_nan. }
    eexists. split; [reflexivity|]. rewrite (sum_s_derived x y _ HF D).
    rewrite <- (map_map (fun e => vsum x e (fun i w => log_density w (pq p e + pb p i) (sqrt (variance cid p e i)))) Fin), np_sum_Fin. reflexivity.
  Qed.
End Newton.
