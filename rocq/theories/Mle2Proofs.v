(** Maximum likelihood models: simplified and original steps agree; each step is
    a Newton step on the log-likelihood. *)
From Coq Require Import List ZArith Bool Arith Reals Lra Lia.
From Verif Require Import PyBase Num ExtReal NumPy AP Mle SpecMos SpecAp SpecMle
  BaseProofs ExtRealProofs ArrayProofs ApProofs Ap2Proofs MleProofs.
Import ListNotations.
Local Open Scope list_scope.
Local Open Scope R_scope.

(** ** Agreement of the simplified and the original steps *)
Lemma ssum_neg : forall x i f, ssum x i (fun e v => - f e v) = - ssum x i f.
Proof. intros. rewrite (ssum_ext x i _ (fun e v => (-1) * f e v)) by (intros; ring). rewrite ssum_mul. ring. Qed.
Lemma vsum_neg : forall x i f, vsum x i (fun e v => - f e v) = - vsum x i f.
Proof. intros. rewrite (vsum_ext x i _ (fun e v => (-1) * f e v)) by (intros; ring). rewrite vsum_mul. ring. Qed.
Lemma ssum_pos_votes : forall x i f, voted x i -> (forall e r v, inside x e i r -> at3 x e i r = Fin v -> 0 < f e v) -> 0 < ssum x i f.
Proof.
  intros x i f (e & r & v & HI & E) H.
  assert (Eq : ssum x i f = ssum x i (fun e w => Rmax 0 (f e w))).
  { apply ssum_ext. intros e' r' v' He Hr E'. rewrite Rmax_right; [reflexivity|]. apply Rlt_le. apply (H e' r' v'); [|exact E'].
    destruct HI as (_ & Hi & _). repeat split; assumption. }
  rewrite Eq. apply Rlt_le_trans with (Rmax 0 (f e v)).
  - apply Rlt_le_trans with (f e v); [apply (H e r v HI E)|apply Rmax_r].
  - apply (ssum_ge x i (fun e w => Rmax 0 (f e w)) e r v); [intros; apply Rmax_l|exact HI|exact E].
Qed.
Lemma vsum_pos_votes : forall x e f, rated x e -> (forall i r v, inside x e i r -> at3 x e i r = Fin v -> 0 < f i v) -> 0 < vsum x e f.
Proof.
  intros x e f (i & r & v & HI & E) H.
  assert (Eq : vsum x e f = vsum x e (fun e w => Rmax 0 (f e w))).
  { apply vsum_ext. intros i' r' v' He Hr E'. rewrite Rmax_right; [reflexivity|]. apply Rlt_le. apply (H i' r' v'); [|exact E'].
    destruct HI as (Hi & _ & _). repeat split; assumption. }
  rewrite Eq. apply Rlt_le_trans with (Rmax 0 (f i v)).
  - apply Rlt_le_trans with (f i v); [apply (H i r v HI E)|apply Rmax_r].
  - apply (vsum_ge x e (fun e w => Rmax 0 (f e w)) i r v); [intros; apply Rmax_l|exact HI|exact E].
Qed.

Section Agree.
  Variables (x : arr3 ef) (cids : list nat) (C : nat) (p : params) (q b v a : list ef).
  Hypothesis (HF : finite_votes x) (HC : fits x cids C) (HH : holds x cids C p q b v a) (HR : regular x (cid_of cids) p).
  Let cid := cid_of cids.

  Definition Nb (i : nat) := ssum x i (fun e w => (w - pq p e) / variance (cid_of cids) p e i).
  Definition Db (i : nat) := ssum x i (fun e w => 1 / variance (cid_of cids) p e i).
  Definition Nx (e : nat) := vsum x e (fun i w => (w - pb p i) / variance (cid_of cids) p e i).
  Definition Dx (e : nat) := vsum x e (fun i w => 1 / variance (cid_of cids) p e i).

  Lemma Db_pos : forall i, voted x i -> 0 < Db i.
  Proof.
    intros i H. apply ssum_pos_votes; [exact H|]. intros e r w HI E. apply Rdiv_lt_0_compat; [lra|]. exact (HR e i r w HI E).
  Qed.
  Lemma Dx_pos : forall e, rated x e -> 0 < Dx e.
  Proof.
    intros e H. apply vsum_pos_votes; [exact H|]. intros i r w HI E. apply Rdiv_lt_0_compat; [lra|]. exact (HR e i r w HI E).
  Qed.

  Lemma b_simplified_eq : b_simplified x cids q b v a =
    (map (fun i => ef_div (Fin (Nb i)) (Fin (Db i))) (seq 0 (dS x)), map (fun i => Fin (Db i)) (seq 0 (dS x))).
  Proof.
    unfold b_simplified. cbv zeta.
    rewrite (sum_e_derived x _ _ HF (d_b1 x cids C p q b v a HF HC HH HR)), (sum_e_derived x _ _ HF (d_b2 x cids C p q b v a HF HC HH HR)).
    rewrite vmap2_map_map. reflexivity.
  Qed.
  Lemma order2_b : forall i, ssum x i (fun e _ => -1 / variance cid p e i) = - Db i.
  Proof. intro i. unfold Db. rewrite <- ssum_neg. apply ssum_ext. intros e r w He Hr E. unfold cid, Rdiv. ring. Qed.
  Lemma order1_b : forall i, ssum x i (fun e w => (w - pq p e - pb p i) / variance cid p e i) = Nb i - pb p i * Db i.
  Proof.
    intro i. unfold Nb, Db. rewrite <- ssum_mul, <- ssum_sub. apply ssum_ext. intros. unfold cid, Rdiv. ring.
  Qed.
  Lemma b_original_eq : b_original x cids q b v a =
    (map (fun i => ef_sub (nth i b NaN) (ef_div (Fin (Nb i - pb p i * Db i)) (Fin (- Db i)))) (seq 0 (dS x)), map (fun i => Fin (Db i)) (seq 0 (dS x))).
  Proof.
    unfold b_original. cbv zeta.
    rewrite (sum_e_derived x _ _ HF (d_b3 x cids C p q b v a HF HC HH HR)), (sum_e_derived x _ _ HF (d_b4 x cids C p q b v a HF HC HH HR)).
    rewrite (list_as_seq b (dS x) (h_lb _ _ _ _ _ _ _ _ HH)) at 1.
    rewrite !vmap2_map_map, map_map. f_equal; apply map_ext; intro i; fold cid; rewrite order2_b.
    - rewrite order1_b. reflexivity.
    - efc. cbn [ef_neg]. f_equal. ring.
  Qed.
  Lemma b_agree : b_simplified x cids q b v a = b_original x cids q b v a.
  Proof.
    rewrite b_simplified_eq, b_original_eq. f_equal. apply map_ext_in. intros i Hi. apply in_seq in Hi.
    destruct (voted_dec x i) as [V|V]; [lia| |].
    - rewrite (h_b _ _ _ _ _ _ _ _ HH) by (first [lia|exact V]). assert (D := Db_pos i V).
      rewrite !ef_div_Fin by lra. rewrite ef_sub_Fin. f_equal. field. lra.
    - unfold Nb, Db. rewrite !ssum_0 by (first [lia|exact V]). replace (0 - pb p i * 0) with 0 by ring. replace (- 0) with 0 by ring.
      rewrite ef_0div0. destruct (nth i b NaN); reflexivity.
  Qed.

  Lemma x_simplified_eq : x_simplified x cids q b v a =
    (map (fun e => ef_div (Fin (Nx e)) (Fin (Dx e))) (seq 0 (dE x)), map (fun e => Fin (Dx e)) (seq 0 (dE x))).
  Proof.
    unfold x_simplified. cbv zeta.
    rewrite (sum_s_derived x _ _ HF (d_x1 x cids C p q b v a HF HC HH HR)), (sum_s_derived x _ _ HF (d_b2 x cids C p q b v a HF HC HH HR)).
    rewrite vmap2_map_map. reflexivity.
  Qed.
  Lemma order2_x : forall e, vsum x e (fun i _ => -1 / variance cid p e i) = - Dx e.
  Proof. intro i. unfold Dx. rewrite <- vsum_neg. apply vsum_ext. intros e r w He Hr E. unfold cid, Rdiv. ring. Qed.
  Lemma order1_x : forall e, vsum x e (fun i w => (w - pq p e - pb p i) / variance cid p e i) = Nx e - pq p e * Dx e.
  Proof.
    intro i. unfold Nx, Dx. rewrite <- vsum_mul, <- vsum_sub. apply vsum_ext. intros. unfold cid, Rdiv. ring.
  Qed.
  Lemma x_original_eq : x_original x cids q b v a =
    (map (fun e => ef_sub (nth e q NaN) (ef_div (Fin (Nx e - pq p e * Dx e)) (Fin (- Dx e)))) (seq 0 (dE x)), map (fun e => Fin (Dx e)) (seq 0 (dE x))).
  Proof.
    unfold x_original. cbv zeta.
    rewrite (sum_s_derived x _ _ HF (d_x3 x cids C p q b v a HF HC HH HR)), (sum_s_derived x _ _ HF (d_b4 x cids C p q b v a HF HC HH HR)).
    rewrite (list_as_seq q (dE x) (h_lq _ _ _ _ _ _ _ _ HH)) at 1.
    rewrite !vmap2_map_map, map_map. f_equal; apply map_ext; intro i; fold cid; rewrite order2_x.
    - rewrite order1_x. reflexivity.
    - efc. cbn [ef_neg]. f_equal. ring.
  Qed.
  Lemma x_agree : x_simplified x cids q b v a = x_original x cids q b v a.
  Proof.
    rewrite x_simplified_eq, x_original_eq. f_equal. apply map_ext_in. intros i Hi. apply in_seq in Hi.
    destruct (rated_dec x i) as [V|V]; [lia| |].
    - rewrite (h_q _ _ _ _ _ _ _ _ HH) by (first [lia|exact V]). assert (D := Dx_pos i V).
      rewrite !ef_div_Fin by lra. rewrite ef_sub_Fin. f_equal. field. lra.
    - unfold Nx, Dx. rewrite !vsum_unrated by (first [lia|exact V]). replace (0 - pq p i * 0) with 0 by ring. replace (- 0) with 0 by ring.
      rewrite ef_0div0. destruct (nth i q NaN); reflexivity.
  Qed.

  Lemma v_simplified_eq : v_simplified x cids q b v a =
    (map (fun i => ef_sub (nth i v NaN) (ef_div (Fin (ssum x i (fun e w => rv1 cids p e i w))) (Fin (ssum x i (fun e w => rv2 cids p e i w))))) (seq 0 (dS x)),
     map (fun i => Fin (- ssum x i (fun e w => rv2 cids p e i w))) (seq 0 (dS x))).
  Proof.
    unfold v_simplified. cbv zeta.
    rewrite (sum_e_derived x _ _ HF (d_v1 x cids C p q b v a HF HC HH HR)), (sum_e_derived x _ _ HF (d_v2 x cids C p q b v a HF HC HH HR)).
    rewrite (list_as_seq v (dS x) (h_lv _ _ _ _ _ _ _ _ HH)) at 1.
    rewrite !vmap2_map_map, map_map. reflexivity.
  Qed.
  Lemma a_simplified_eq : a_simplified x cids C q b v a =
    (map (fun c => ef_sub (nth c a NaN) (ef_div
        (Fin (Rsum (map (fun e => if Nat.eqb (cid e) c then vsum x e (fun i w => ra1 cids p e i w) else 0) (seq 0 (dE x)))))
        (Fin (Rsum (map (fun e => if Nat.eqb (cid e) c then vsum x e (fun i w => ra2 cids p e i w) else 0) (seq 0 (dE x))))))) (seq 0 C),
     map (fun c => Fin (- Rsum (map (fun e => if Nat.eqb (cid e) c then vsum x e (fun i w => ra2 cids p e i w) else 0) (seq 0 (dE x))))) (seq 0 C)).
  Proof.
    unfold a_simplified. cbv zeta.
    rewrite (sum_s_derived x _ _ HF (d_a1 x cids C p q b v a HF HC HH HR)), (sum_s_derived x _ _ HF (d_a2 x cids C p q b v a HF HC HH HR)).
    destruct HC as [L _]. rewrite <- L. rewrite !sum_over_cid_Fin.
    rewrite (list_as_seq a C (h_la _ _ _ _ _ _ _ _ HH)) at 1.
    rewrite !vmap2_map_map, map_map. reflexivity.
  Qed.
End Agree.

(** ** Derivatives of sums over votes *)
Lemma d_ext : forall f g t l, (forall z, f z = g z) -> derivable_pt_lim f t l -> derivable_pt_lim g t l.
Proof. intros. eapply derivable_pt_lim_ext; eauto. Qed.
Lemma d_val : forall f t l l', l = l' -> derivable_pt_lim f t l -> derivable_pt_lim f t l'.
Proof. intros f t l l' -> H. exact H. Qed.
Lemma d_const : forall c t, derivable_pt_lim (fun _ => c) t 0.
Proof. intros. apply (derivable_pt_lim_const c). Qed.
Lemma d_id : forall t, derivable_pt_lim (fun z => z) t 1.
Proof. intro t. apply (derivable_pt_lim_id t). Qed.
Lemma d_add : forall f g t a b, derivable_pt_lim f t a -> derivable_pt_lim g t b -> derivable_pt_lim (fun z => f z + g z) t (a + b).
Proof. intros. apply (derivable_pt_lim_plus f g); assumption. Qed.
Lemma d_sub : forall f g t a b, derivable_pt_lim f t a -> derivable_pt_lim g t b -> derivable_pt_lim (fun z => f z - g z) t (a - b).
Proof. intros. apply (derivable_pt_lim_minus f g); assumption. Qed.
Lemma d_mul : forall f g t a b, derivable_pt_lim f t a -> derivable_pt_lim g t b -> derivable_pt_lim (fun z => f z * g z) t (a * g t + f t * b).
Proof. intros. apply (derivable_pt_lim_mult f g); assumption. Qed.
Lemma d_div : forall f g t a b, derivable_pt_lim f t a -> derivable_pt_lim g t b -> g t <> 0 ->
  derivable_pt_lim (fun z => f z / g z) t ((a * g t - b * f t) / (g t * g t)).
Proof. intros. apply (derivable_pt_lim_div f g); assumption. Qed.
Lemma d_comp : forall f g t a b, derivable_pt_lim f t a -> derivable_pt_lim g (f t) b -> derivable_pt_lim (fun z => g (f z)) t (b * a).
Proof. intros. apply (derivable_pt_lim_comp f g); assumption. Qed.

Lemma d_Rsum : forall A (l : list A) (f : A -> R -> R) (d : A -> R) t,
  (forall k, In k l -> derivable_pt_lim (f k) t (d k)) ->
  derivable_pt_lim (fun z => Rsum (map (fun k => f k z) l)) t (Rsum (map d l)).
Proof.
  induction l as [|k l IH]; intros f d t H; [exact (d_const 0 t)|].
  cbn [map]. rewrite Rsum_cons. apply (d_ext (fun z => f k z + Rsum (map (fun k => f k z) l))); [intro; rewrite Rsum_cons; reflexivity|].
  apply d_add; [apply H; left; reflexivity|]. apply IH. intros; apply H; right; assumption.
Qed.
Lemma d_tsum : forall x (F : R -> nat -> nat -> R -> R) D t,
  (forall e i r w, inside x e i r -> at3 x e i r = Fin w -> derivable_pt_lim (fun z => F z e i w) t (D e i w)) ->
  derivable_pt_lim (fun z => tsum x (F z)) t (tsum x D).
Proof.
  intros x F D t H. unfold tsum, vsum.
  apply (d_Rsum nat _ (fun e z => Rsum (map (fun i => Rsum (map (fun r => vote_term (F z e i) (at3 x e i r)) (seq 0 (dR x)))) (seq 0 (dS x))))).
  intros e He. apply in_seq in He.
  apply (d_Rsum nat _ (fun i z => Rsum (map (fun r => vote_term (F z e i) (at3 x e i r)) (seq 0 (dR x))))). intros i Hi. apply in_seq in Hi.
  apply (d_Rsum nat _ (fun r z => vote_term (F z e i) (at3 x e i r))). intros r Hr. apply in_seq in Hr.
  destruct (at3 x e i r) as [w| | |] eqn:E; cbn [vote_term]; try apply d_const.
  apply (H e i r w); [|exact E]. repeat split; lia.
Qed.

Lemma Rsum_one : forall (f : nat -> R) n k i, (k <= i < k + n)%nat -> Rsum (map (fun j => if Nat.eqb j i then f j else 0) (seq k n)) = f i.
Proof.
  induction n as [|n IH]; intros k i H; [lia|]. cbn [seq map]. rewrite Rsum_cons. destruct (Nat.eqb k i) eqn:E.
  - apply Nat.eqb_eq in E. subst. rewrite (Rsum_map_ext _ _ (fun _ => 0)).
    + rewrite Rsum_map_const. ring.
    + intros j Hj. apply in_seq in Hj. destruct (Nat.eqb j i) eqn:E; [|reflexivity]. apply Nat.eqb_eq in E. lia.
  - apply Nat.eqb_neq in E. rewrite IH by lia. ring.
Qed.
Lemma tsum_subject : forall x i f, (i < dS x)%nat -> tsum x (fun e j w => if Nat.eqb j i then f e j w else 0) = ssum x i (fun e w => f e i w).
Proof.
  intros x i f Hi. unfold tsum, vsum, ssum. apply Rsum_map_ext. intros e _.
  transitivity (Rsum (map (fun j => if Nat.eqb j i then (fun j => Rsum (map (fun r => vote_term (f e j) (at3 x e j r)) (seq 0 (dR x)))) j else 0) (seq 0 (dS x)))); [|apply Rsum_one; lia].
  apply Rsum_map_ext. intros j _. destruct (Nat.eqb j i); [reflexivity|].
  rewrite (Rsum_map_ext _ _ (fun _ => 0)); [rewrite Rsum_map_const; ring|]. intros r _. destruct (at3 x e j r); reflexivity.
Qed.
Lemma tsum_where : forall x (t : nat -> bool) f, tsum x (fun e j w => if t e then f e j w else 0) =
  Rsum (map (fun e => if t e then vsum x e (fun j w => f e j w) else 0) (seq 0 (dE x))).
Proof.
  intros x t f. unfold tsum. apply Rsum_map_ext. intros e _. destruct (t e); [reflexivity|]. rewrite vsum_const. ring.
Qed.
Lemma tsum_video : forall x e f, (e < dE x)%nat -> tsum x (fun k j w => if Nat.eqb k e then f k j w else 0) = vsum x e (fun j w => f e j w).
Proof.
  intros x e f He. rewrite tsum_where. apply (Rsum_one (fun k => vsum x k (fun j w => f k j w)) (dE x) 0 e). lia.
Qed.

(** ** One vote *)
Lemma d_mean : forall v m w, 0 < w -> derivable_pt_lim (fun m => log_density v m (sqrt w)) m ((v - m) / w).
Proof.
  intros v m w H. unfold log_density. rewrite sqrt_sqrt by lra.
  apply (d_val _ _ (((0 - (0 - 1)) * (v - m) + (v - m) * (0 - (0 - 1))) / (2 * w) - 0 - 0)); [field; lra|].
  apply d_sub; [apply d_sub|]; try apply d_const.
  apply (d_ext (fun m => (0 - (v - m)) * (v - m) / (2 * w))); [intro; f_equal; ring|].
  apply (d_val _ _ ((((0 - (0 - 1)) * (v - m) + (0 - (v - m)) * (0 - 1)) * (2 * w) - 0 * ((0 - (v - m)) * (v - m))) / ((2 * w) * (2 * w)))); [field; lra|].
  apply (d_div (fun m => (0 - (v - m)) * (v - m)) (fun _ => 2 * w)); [|apply d_const|lra].
  apply (d_mul (fun m => 0 - (v - m)) (fun m => v - m)).
  - apply d_sub; [apply d_const|]. apply d_sub; [apply d_const|apply d_id].
  - apply d_sub; [apply d_const|apply d_id].
Qed.
Lemma d_var : forall v m w, 0 < w -> derivable_pt_lim (fun w => log_density v m (sqrt w)) w ((v - m) * (v - m) / (2 * (w * w)) - 1 / (2 * w)).
Proof.
  intros v m w H. assert (S := sqrt_lt_R0 w H).
  apply (derivable_pt_lim_locally_ext (fun w => - ((v - m) * (v - m)) / (2 * w) - ln (sqrt w) - ln (sqrt (2 * PI))) _ w 0 (w + 1)); [lra| |].
  { intros z Hz. unfold log_density. rewrite sqrt_sqrt by lra. reflexivity. }
  apply (d_val _ _ ((0 * (2 * w) - 2 * (- ((v - m) * (v - m)))) / ((2 * w) * (2 * w)) - (/ sqrt w * / (2 * sqrt w)) - 0)).
  { rewrite <- Rinv_mult. replace (sqrt w * (2 * sqrt w)) with (2 * (sqrt w * sqrt w)) by ring. rewrite sqrt_sqrt by lra. field. lra. }
  apply d_sub; [apply d_sub|apply d_const].
  - apply (d_div (fun _ => - ((v - m) * (v - m))) (fun w => 2 * w)); [apply d_const| |lra].
    apply (d_val _ _ (0 * w + 2 * 1)); [ring|]. apply (d_mul (fun _ => 2) (fun w => w)); [apply d_const|apply d_id].
  - apply (d_comp sqrt ln); [apply derivable_pt_lim_sqrt; exact H|apply derivable_pt_lim_ln; exact S].
Qed.
(** Derivatives in the scale parameter t, with variance t^2 + k. *)
Lemma d_scale : forall v m k t, 0 < t * t + k -> derivable_pt_lim (fun t => log_density v m (sqrt (t * t + k))) t
  (- t / (t * t + k) + t * ((v - m) * (v - m)) / ((t * t + k) * (t * t + k))).
Proof.
  intros v m k t H.
  apply (d_val _ _ (((v - m) * (v - m) / (2 * ((t * t + k) * (t * t + k))) - 1 / (2 * (t * t + k))) * (1 * t + t * 1 + 0))); [field; lra|].
  apply (d_comp (fun t => t * t + k) (fun w => log_density v m (sqrt w))); [|apply d_var; exact H].
  apply d_add; [|apply d_const]. apply (d_mul (fun t => t) (fun t => t)); apply d_id.
Qed.
Lemma d_scale2 : forall r k t, 0 < t * t + k -> derivable_pt_lim (fun t => - t / (t * t + k) + t * r / ((t * t + k) * (t * t + k))) t
  ((t * t - k) / ((t * t + k) * (t * t + k)) + r * (k - 3 * (t * t)) / ((t * t + k) * (t * t + k) * (t * t + k))).
Proof.
  intros r k t H.
  assert (D : derivable_pt_lim (fun t => t * t + k) t (1 * t + t * 1 + 0)).
  { apply d_add; [|apply d_const]. apply (d_mul (fun t => t) (fun t => t)); apply d_id. }
  set (w := t * t + k) in *.
  apply (d_val _ _ (((0 - 1) * w - (1 * t + t * 1 + 0) * (0 - t)) / (w * w) +
     ((1 * r + t * 0) * (w * w) - ((1 * t + t * 1 + 0) * w + w * (1 * t + t * 1 + 0)) * (t * r)) / ((w * w) * (w * w)))).
  { unfold w in *. field. lra. }
  apply d_add.
  - apply (d_ext (fun t => (0 - t) / (t * t + k))); [intro; f_equal; ring|].
    apply (d_div (fun t => 0 - t) (fun t => t * t + k)); [apply d_sub; [apply d_const|apply d_id]|exact D|fold w; lra].
  - apply (d_div (fun t => t * r) (fun t => (t * t + k) * (t * t + k))).
    + apply (d_mul (fun t => t) (fun _ => r)); [apply d_id|apply d_const].
    + apply (d_mul (fun t => t * t + k) (fun t => t * t + k)); exact D.
    + fold w. apply sq_pos. exact H.
Qed.
