(** Bradley-Terry by fixed point iteration: the real-number reading of the
    update, positivity, monotone likelihood and fixed points. *)
From Coq Require Import List ZArith Bool Arith Reals Lia Lra.
From Verif Require Import PyBase Num ExtReal ExtRealProofs NumPy ArrayProofs SpecMos PairedComp SpecBt.
Import ListNotations.
Local Open Scope list_scope.
Local Open Scope R_scope.

(** ** Finite sums *)
Lemma in_seq0 : forall n i, In i (seq 0 n) -> (i < n)%nat.
Proof. intros n i H. apply in_seq in H. lia. Qed.
Lemma total_ext : forall m f g, (forall i, (i < m)%nat -> f i = g i) -> total m f = total m g.
Proof. intros m f g H. unfold total. apply Rsum_map_ext. intros x Hx. apply H, in_seq0, Hx. Qed.
Lemma total_add : forall m f g, total m (fun i => f i + g i) = total m f + total m g.
Proof. intros. apply Rsum_map_add. Qed.
Lemma total_sub : forall m f g, total m (fun i => f i - g i) = total m f - total m g.
Proof. intros. apply Rsum_map_sub. Qed.
Lemma total_mul : forall m c f, total m (fun i => c * f i) = c * total m f.
Proof. intros. apply Rsum_map_mul. Qed.
Lemma total_mulr : forall m c f, total m (fun i => f i * c) = total m f * c.
Proof. intros. apply Rsum_map_mulr. Qed.
Lemma total_swap : forall m n (f : nat -> nat -> R),
  total m (fun i => total n (f i)) = total n (fun j => total m (fun i => f i j)).
Proof. intros. unfold total. apply Rsum_swap. Qed.
Lemma total_le : forall m f g, (forall i, (i < m)%nat -> f i <= g i) -> total m f <= total m g.
Proof. intros m f g H. unfold total. apply Rsum_le. intros x Hx. apply H, in_seq0, Hx. Qed.
Lemma total_nonneg : forall m f, (forall i, (i < m)%nat -> 0 <= f i) -> 0 <= total m f.
Proof.
  intros m f H. unfold total. apply Rsum_nonneg. intros x Hx. apply in_map_iff in Hx.
  destruct Hx as [i [<- Hi]]. apply H, in_seq0, Hi.
Qed.
Lemma total_pos : forall m f i, (i < m)%nat -> (forall i, (i < m)%nat -> 0 <= f i) -> 0 < f i -> 0 < total m f.
Proof.
  intros m f i Hi H Hp. destruct (Rle_lt_or_eq_dec _ _ (total_nonneg m f H)) as [L|L]; [exact L|].
  exfalso. assert (f i = 0); [|lra]. symmetry in L. unfold total in L.
  apply (Rsum_eq0 (map f (seq 0 m))); [|exact L|].
  - intros x Hx. apply in_map_iff in Hx. destruct Hx as [k [<- Hk]]. apply H, in_seq0, Hk.
  - apply in_map, in_seq. lia.
Qed.
Lemma total_all_pos : forall m f, (0 < m)%nat -> (forall i, (i < m)%nat -> 0 < f i) -> 0 < total m f.
Proof. intros m f Hm H. apply (total_pos m f 0%nat Hm); [intros; left; apply H; assumption|apply H, Hm]. Qed.
Lemma total_pos_elim : forall m f, 0 < total m f -> exists i, (i < m)%nat /\ 0 < f i.
Proof.
  intros m f. unfold total. induction m as [|m IH].
  - unfold Rsum. cbn. lra.
  - rewrite seq_S, map_app, Rsum_app. unfold Rsum at 2. cbn. intros H.
    destruct (Rlt_dec 0 (f m)) as [L|L]; [exists m; split; [lia|exact L]|].
    destruct IH as [i [Hi Hf]]; [lra|]. exists i. split; [lia|exact Hf].
Qed.
Lemma np_sum_total : forall m f, np_sum (map (fun i => Fin (f i)) (seq 0 m)) = Fin (total m f).
Proof. intros. unfold total. rewrite <- np_sum_Fin, map_map. reflexivity. Qed.
Lemma np_sum_total_ext : forall m (g : nat -> ef) f, (forall i, (i < m)%nat -> g i = Fin (f i)) ->
  np_sum (map g (seq 0 m)) = Fin (total m f).
Proof.
  intros m g f H. rewrite <- np_sum_total. f_equal. apply map_ext_in. intros i Hi. apply H, in_seq0, Hi.
Qed.
Lemma vat_vec : forall m p i, (i < m)%nat -> vat (vec m p) i = Fin (p i).
Proof. intros. unfold vec. apply vat_map_seq. assumption. Qed.
Lemma vec_ext : forall m p q, (forall i, (i < m)%nat -> p i = q i) -> vec m p = vec m q.
Proof. intros m p q H. unfold vec. apply map_ext_in. intros i Hi. f_equal. apply H, in_seq0, Hi. Qed.
Lemma vec_inj : forall m p q, vec m p = vec m q -> forall i, (i < m)%nat -> p i = q i.
Proof.
  intros m p q H i Hi. assert (E : Fin (p i) = Fin (q i)).
  { rewrite <- (vat_vec m p i Hi), <- (vat_vec m q i Hi). f_equal. exact H. }
  congruence.
Qed.

(** ** The update over the reals *)
Definition rate (m : nat) (w : nat -> nat -> R) (p : nat -> R) (i : nat) : R :=
  total m (fun j => games w i j / (p i + p j)).
Definition raw (m : nat) (w : nat -> nat -> R) (p : nat -> R) (i : nat) : R := wins m w i / rate m w p i.
Definition step (m : nat) (w : nat -> nat -> R) (p : nat -> R) (i : nat) : R := raw m w p i / total m (raw m w p).

Lemma rate_pos : forall m w p i, nonneg_counts m w -> each_won m w -> positive m p -> (i < m)%nat -> 0 < rate m w p i.
Proof.
  intros m w p i Hw He Hp Hi. destruct (total_pos_elim m (w i) (He i Hi)) as [j [Hj Hwj]].
  assert (P : forall k, (k < m)%nat -> 0 < / (p i + p k)).
  { intros k Hk. apply Rinv_0_lt_compat. generalize (Hp i Hi) (Hp k Hk). lra. }
  apply (total_pos m (fun j => games w i j / (p i + p j)) j Hj).
  - intros k Hk. unfold Rdiv, games. apply Rmult_le_pos; [|left; apply P, Hk].
    generalize (Hw i k Hi Hk) (Hw k i Hk Hi). lra.
  - unfold Rdiv, games. apply Rmult_lt_0_compat; [|apply P, Hj]. generalize (Hw j i Hj Hi). lra.
Qed.
Lemma raw_pos : forall m w p, nonneg_counts m w -> each_won m w -> positive m p -> positive m (raw m w p).
Proof.
  intros m w p Hw He Hp i Hi. unfold raw. apply Rdiv_lt_0_compat; [apply He, Hi|apply rate_pos; assumption].
Qed.
Lemma step_prob : forall m w p, (0 < m)%nat -> nonneg_counts m w -> each_won m w -> positive m p -> probabilities m (step m w p).
Proof.
  intros m w p Hm Hw He Hp. assert (R := raw_pos m w p Hw He Hp).
  assert (T := total_all_pos m (raw m w p) Hm R). split.
  - intros i Hi. apply Rdiv_lt_0_compat; [apply R, Hi|exact T].
  - unfold step, Rdiv. rewrite total_mulr. field. lra.
Qed.

Lemma played_Fin : forall a m w i j, counts a m w -> (i < m)%nat -> (j < m)%nat -> played a i j = Fin (games w i j).
Proof. intros a m w i j (_ & _ & H) Hi Hj. unfold played, games. efc. rewrite !H by assumption. reflexivity. Qed.

Lemma bt_raw_eq : forall a m w p, counts a m w -> nonneg_counts m w -> each_won m w -> positive m p ->
  bt_raw a (vec m p) = vec m (raw m w p).
Proof.
  intros a m w p Ha Hw He Hp. destruct Ha as (E0 & E1 & H). unfold bt_raw. rewrite E0, E1. unfold vec at 2.
  apply map_ext_in. intros i Hi. apply in_seq0 in Hi. unfold row. rewrite E1.
  rewrite (np_sum_total_ext m (at2 a i) (w i)) by (intros; apply H; assumption).
  rewrite (np_sum_total_ext m _ (fun j => games w i j / (p i + p j))).
  - efc. rewrite ef_div_Fin; [reflexivity|]. apply Rgt_not_eq. apply rate_pos; assumption.
  - intros j Hj. rewrite (played_Fin a m w) by (repeat split; assumption). unfold bt_pp. rewrite !vat_vec by assumption.
    efc. cbn [ef_add]. rewrite ef_div_Fin; [reflexivity|]. generalize (Hp i Hi) (Hp j Hj). lra.
Qed.
Lemma bt_step_eq : forall a m w p, (0 < m)%nat -> counts a m w -> nonneg_counts m w -> each_won m w -> positive m p ->
  bt_step a (vec m p) = vec m (step m w p).
Proof.
  intros a m w p Hm Ha Hw He Hp. unfold bt_step. rewrite (bt_raw_eq a m w p) by assumption.
  unfold bt_normalised. unfold vec. rewrite np_sum_total, map_map. apply map_ext_in. intros i Hi.
  apply in_seq0 in Hi. efc. rewrite ef_div_Fin; [reflexivity|]. apply Rgt_not_eq.
  apply total_all_pos; [exact Hm|]. apply raw_pos; assumption.
Qed.
Lemma bt_start_eq : forall m, (0 < m)%nat -> bt_start m = vec m (fun _ => / INR m).
Proof.
  intros m Hm. unfold bt_start, vec. apply map_ext. intros _. rewrite nofnat_ef. unfold none_. efc.
  rewrite ef_div_Fin by (apply not_0_INR; lia). cbn [ef_mul]. f_equal. field. apply not_0_INR. lia.
Qed.
Lemma start_prob : forall m, (0 < m)%nat -> probabilities m (fun _ => / INR m).
Proof.
  intros m Hm. split.
  - intros i _. apply Rinv_0_lt_compat, lt_0_INR, Hm.
  - unfold total. rewrite Rsum_map_const, seq_length. field. apply not_0_INR. lia.
Qed.

(** k passes. *)
Lemma iter_prob : forall a m w k, (0 < m)%nat -> counts a m w -> nonneg_counts m w -> each_won m w ->
  exists p, probabilities m p /\ Nat.iter k (bt_step a) (bt_start m) = vec m p.
Proof.
  intros a m w k Hm Ha Hw He. induction k as [|k [p [Hp E]]].
  - exists (fun _ => / INR m). split; [apply start_prob, Hm|apply bt_start_eq, Hm].
  - exists (step m w p). split; [apply step_prob; try assumption; apply Hp|].
    change (bt_step a (Nat.iter k (bt_step a) (bt_start m)) = vec m (step m w p)). rewrite E. apply bt_step_eq; try assumption. apply Hp.
Qed.

(** ** The likelihood never decreases *)
Lemma total_games : forall m w f, total m (fun i => total m (fun j => games w i j * f i j)) =
  total m (fun i => total m (fun j => w i j * (f i j + f j i))).
Proof.
  intros m w f. unfold games.
  rewrite (total_ext m _ (fun i => total m (fun j => w i j * f i j) + total m (fun j => w j i * f i j)))
    by (intros; rewrite <- total_add; apply total_ext; intros; ring).
  rewrite total_add. rewrite (total_swap m m (fun i j => w j i * f i j)).
  rewrite <- total_add. apply total_ext. intros i _. rewrite <- total_add. apply total_ext. intros. ring.
Qed.
Lemma total_expected : forall m w p, positive m p -> total m (expected m w p) = total m (wins m w).
Proof.
  intros m w p Hp. unfold expected. rewrite total_games. apply total_ext. intros i Hi. apply total_ext. intros j Hj.
  unfold beats. generalize (Hp i Hi) (Hp j Hj). intros. field. lra.
Qed.
Lemma expected_rate : forall m w p i, expected m w p i = p i * rate m w p i.
Proof.
  intros. unfold expected, rate. rewrite <- total_mul. apply total_ext. intros j Hj. unfold beats, Rdiv. ring.
Qed.
Lemma beats_pos : forall m p i j, positive m p -> (i < m)%nat -> (j < m)%nat -> 0 < beats p i j.
Proof. intros m p i j Hp Hi Hj. unfold beats. generalize (Hp i Hi) (Hp j Hj). intros. apply Rdiv_lt_0_compat; lra. Qed.

Lemma ln_div : forall x y, 0 < x -> 0 < y -> ln (x / y) = ln x - ln y.
Proof. intros x y Hx Hy. unfold Rdiv. rewrite ln_mult, ln_Rinv by (try apply Rinv_0_lt_compat; assumption). ring. Qed.
Lemma ln_ge : forall x, 0 < x -> 1 - / x <= ln x.
Proof.
  intros x Hx. assert (H : ln (/ x) <= / x - 1).
  { assert (P : 0 < / x) by (apply Rinv_0_lt_compat; assumption).
    destruct (Req_dec (ln (/ x)) 0) as [Z|Z].
    - rewrite <- (exp_ln (/ x) P), Z, exp_0, ln_1. lra.
    - generalize (exp_ineq1 (ln (/ x)) Z). rewrite exp_ln by exact P. lra. }
  rewrite ln_Rinv in H by exact Hx. lra.
Qed.
Lemma ln_le : forall x, 0 < x -> ln x <= x - 1.
Proof.
  intros x Hx. generalize (ln_ge (/ x) (Rinv_0_lt_compat _ Hx)). rewrite ln_Rinv by exact Hx. rewrite Rinv_inv. lra.
Qed.

Lemma likelihood_raw : forall m w p, nonneg_counts m w -> each_won m w -> positive m p ->
  bt_likelihood m w p <= bt_likelihood m w (raw m w p).
Proof.
  intros m w p Hw He Hp. assert (Hq := raw_pos m w p Hw He Hp). set (q := raw m w p) in *.
  assert (D : forall i, (i < m)%nat -> q i * rate m w p i = wins m w i).
  { intros i Hi. unfold q, raw. field. apply Rgt_not_eq, rate_pos; assumption. }
  (* lower bound term by term *)
  assert (B : total m (fun i => total m (fun j => w i j * (1 - p i / q i + 1 - (q i + q j) / (p i + p j))))
              <= total m (fun i => total m (fun j => w i j * (ln (beats q i j) - ln (beats p i j))))).
  { apply total_le. intros i Hi. apply total_le. intros j Hj. apply Rmult_le_compat_l; [apply Hw; assumption|].
    generalize (Hp i Hi) (Hp j Hj) (Hq i Hi) (Hq j Hj). intros. unfold beats.
    assert (A : ln (q i / (q i + q j)) - ln (p i / (p i + p j)) = ln (q i / p i) - ln ((q i + q j) / (p i + p j))).
    { rewrite !ln_div by lra. ring. }
    rewrite A. assert (A1 := ln_ge (q i / p i) ltac:(apply Rdiv_lt_0_compat; lra)).
    assert (A2 := ln_le ((q i + q j) / (p i + p j)) ltac:(apply Rdiv_lt_0_compat; lra)).
    replace (/ (q i / p i)) with (p i / q i) in A1 by (field; lra). lra. }
  assert (Z : total m (fun i => total m (fun j => w i j * (1 - p i / q i + 1 - (q i + q j) / (p i + p j)))) = 0).
  { assert (X1 : forall i, (i < m)%nat -> total m (fun j => w i j * (1 - p i / q i + 1 - (q i + q j) / (p i + p j)))
       = (2 * wins m w i - expected m w p i) - total m (fun j => w i j * ((fun a b => q a / (p a + p b)) i j + (fun a b => q a / (p a + p b)) j i))).
    { intros i Hi. rewrite expected_rate. rewrite <- (D i Hi) at 2 || idtac.
      unfold wins at 1. rewrite <- total_mul.
      assert (Ei : p i * rate m w p i = total m (fun j => w i j * (p i / q i))).
      { rewrite total_mulr. fold (wins m w i). rewrite <- (D i Hi). field. apply Rgt_not_eq, Hq, Hi. }
      rewrite Ei, <- !total_sub. apply total_ext. intros j Hj. generalize (Hp i Hi) (Hp j Hj) (Hq i Hi). intros. field. lra. }
    rewrite (total_ext m _ _ X1), total_sub, total_sub, total_mul, total_expected by exact Hp.
    rewrite <- (total_games m w (fun a b => q a / (p a + p b))).
    assert (X2 : total m (fun i => total m (fun j => games w i j * (q i / (p i + p j)))) = total m (wins m w)).
    { apply total_ext. intros i Hi. rewrite <- (D i Hi). unfold rate. rewrite <- total_mul. apply total_ext. intros. unfold Rdiv. ring. }
    rewrite X2. ring. }
  rewrite Z in B.
  assert (S : total m (fun i => total m (fun j => w i j * (ln (beats q i j) - ln (beats p i j)))) = bt_likelihood m w q - bt_likelihood m w p).
  { unfold bt_likelihood. rewrite <- total_sub. apply total_ext. intros i _. rewrite <- total_sub. apply total_ext. intros. ring. }
  rewrite S in B. lra.
Qed.

Lemma beats_scale : forall c p i j, c <> 0 -> p i + p j <> 0 -> beats (fun k => c * p k) i j = beats p i j.
Proof. intros. unfold beats. rewrite <- Rmult_plus_distr_l. field. split; assumption. Qed.
Lemma likelihood_ext : forall m w p q, (forall i j, (i < m)%nat -> (j < m)%nat -> beats p i j = beats q i j) -> bt_likelihood m w p = bt_likelihood m w q.
Proof. intros m w p q H. apply total_ext. intros i Hi. apply total_ext. intros j Hj. rewrite H by assumption. reflexivity. Qed.
Lemma likelihood_scale : forall m w p c, positive m p -> 0 < c -> bt_likelihood m w (fun i => c * p i) = bt_likelihood m w p.
Proof.
  intros m w p c Hp Hc. apply likelihood_ext. intros i j Hi Hj. apply beats_scale; [lra|].
  generalize (Hp i Hi) (Hp j Hj). lra.
Qed.
Lemma likelihood_step : forall m w p, (0 < m)%nat -> nonneg_counts m w -> each_won m w -> positive m p ->
  bt_likelihood m w p <= bt_likelihood m w (step m w p).
Proof.
  intros m w p Hm Hw He Hp. assert (R := raw_pos m w p Hw He Hp). eapply Rle_trans; [apply likelihood_raw; assumption|].
  right. assert (T := total_all_pos m (raw m w p) Hm R).
  rewrite <- (likelihood_scale m w (raw m w p) (/ total m (raw m w p))); [|exact R|apply Rinv_0_lt_compat, T].
  apply likelihood_ext. intros i j _ _. unfold beats, step, Rdiv. rewrite !(Rmult_comm (/ total m (raw m w p))). reflexivity.
Qed.

(** ** Fixed points *)
Lemma wins_total_pos : forall m w, (0 < m)%nat -> each_won m w -> 0 < total m (wins m w).
Proof. intros m w Hm He. apply total_all_pos; assumption. Qed.

Lemma balanced_common : forall m w p c, (0 < m)%nat -> each_won m w -> positive m p ->
  (forall i, (i < m)%nat -> wins m w i = c * expected m w p i) -> c = 1.
Proof.
  intros m w p c Hm He Hp H. assert (T := wins_total_pos m w Hm He).
  assert (E : total m (wins m w) = c * total m (wins m w)).
  { rewrite <- (total_expected m w p Hp) at 2. rewrite <- total_mul. apply total_ext. exact H. }
  apply Rmult_eq_reg_r with (total m (wins m w)); lra.
Qed.

Lemma fixed_balanced : forall m w p, (0 < m)%nat -> nonneg_counts m w -> each_won m w -> probabilities m p ->
  ((forall i, (i < m)%nat -> step m w p i = p i) <-> (forall i, (i < m)%nat -> wins m w i = expected m w p i)).
Proof.
  intros m w p Hm Hw He [Hp H1]. assert (R := raw_pos m w p Hw He Hp). assert (T := total_all_pos m (raw m w p) Hm R). split.
  - intros H. set (c := total m (raw m w p)) in *.
    assert (E : forall i, (i < m)%nat -> wins m w i = c * expected m w p i).
    { intros i Hi. rewrite expected_rate, <- (H i Hi). unfold step. fold c. unfold raw.
      field. split; first [apply Rgt_not_eq, T | apply Rgt_not_eq, rate_pos; assumption]. }
    rewrite (balanced_common m w p c Hm He Hp E) in E. intros i Hi. rewrite (E i Hi). ring.
  - intros H.
    assert (E : forall i, (i < m)%nat -> raw m w p i = p i).
    { intros i Hi. unfold raw. rewrite (H i Hi), expected_rate. field. apply Rgt_not_eq, rate_pos; assumption. }
    intros i Hi. unfold step. rewrite (total_ext m _ p E), H1, (E i Hi). field.
Qed.

(** ** Derivatives of the likelihood *)
Lemma upd_same : forall p i t, upd p i t i = t.
Proof. intros. unfold upd. rewrite Nat.eqb_refl. reflexivity. Qed.
Lemma upd_other : forall p i t k, k <> i -> upd p i t k = p k.
Proof. intros p i t k H. unfold upd. destruct (Nat.eqb_spec k i); [contradiction|reflexivity]. Qed.
Lemma upd_id : forall p i k, upd p i (p i) k = p k.
Proof. intros p i k. unfold upd. destruct (Nat.eqb_spec k i); [subst|]; reflexivity. Qed.

Lemma dlim_ext : forall f g x d, (forall t, f t = g t) -> derivable_pt_lim f x d -> derivable_pt_lim g x d.
Proof. intros f g x d H D e He. destruct (D e He) as [de Hd]. exists de. intros h. rewrite <- !H. apply Hd. Qed.
Lemma dlim_ext_near : forall f g x d r, 0 < r -> (forall t, Rabs (t - x) < r -> f t = g t) -> derivable_pt_lim f x d -> derivable_pt_lim g x d.
Proof.
  intros f g x d r Hr H D e He. destruct (D e He) as [de Hd].
  assert (P : 0 < Rmin r de) by (apply Rmin_pos; [exact Hr|apply cond_pos]).
  exists (mkposreal _ P). intros h Hh Hl. cbn in Hl. assert (L1 := Rmin_l r de). assert (L2 := Rmin_r r de).
  rewrite <- !H; [apply Hd; [exact Hh|lra]|..].
  - replace (x - x) with 0 by ring. rewrite Rabs_R0. exact Hr.
  - replace (x + h - x) with h by ring. lra.
Qed.
Lemma dlim_eq : forall f x d d', derivable_pt_lim f x d -> d = d' -> derivable_pt_lim f x d'.
Proof. intros. subst. assumption. Qed.
Lemma total_S : forall m f, total (S m) f = total m f + f m.
Proof. intros. unfold total. rewrite seq_S, map_app, Rsum_app. unfold Rsum at 2. cbn. ring. Qed.
Lemma dlim_total : forall m (f : nat -> R -> R) (d : nat -> R) x, (forall k, (k < m)%nat -> derivable_pt_lim (f k) x (d k)) ->
  derivable_pt_lim (fun t => total m (fun k => f k t)) x (total m d).
Proof.
  induction m as [|m IH]; intros f d x H.
  - apply (dlim_ext (fct_cte 0)); [reflexivity|]. apply derivable_pt_lim_const.
  - rewrite total_S. apply (dlim_ext (fun t => total m (fun k => f k t) + f m t)); [intros; rewrite total_S; reflexivity|].
    apply (derivable_pt_lim_plus (fun t => total m (fun k => f k t)) (f m)); [apply IH; intros; apply H; lia|apply H; lia].
Qed.
Lemma dlim_scal : forall f x d c, derivable_pt_lim f x d -> derivable_pt_lim (fun t => c * f t) x (c * d).
Proof. intros. apply (derivable_pt_lim_scal f c x d). assumption. Qed.
Lemma dlim_const : forall c x, derivable_pt_lim (fun _ => c) x 0.
Proof. intros. apply (derivable_pt_lim_const c x). Qed.
Lemma dlim_ln : forall f x d, 0 < f x -> derivable_pt_lim f x d -> derivable_pt_lim (fun t => ln (f t)) x (d / f x).
Proof.
  intros f x d Hf D. apply dlim_eq with (/ f x * d); [|unfold Rdiv; ring].
  apply (derivable_pt_lim_comp f ln); [exact D|]. apply derivable_pt_lim_ln. exact Hf.
Qed.
Lemma dlim_div : forall f g x d e, g x <> 0 -> derivable_pt_lim f x d -> derivable_pt_lim g x e ->
  derivable_pt_lim (fun t => f t / g t) x ((d * g x - e * f x) / (g x * g x)).
Proof.
  intros. apply dlim_eq with ((d * g x - e * f x) / (g x)²); [|reflexivity]. apply (derivable_pt_lim_div f g); assumption.
Qed.
Lemma dlim_plus : forall f g x d e, derivable_pt_lim f x d -> derivable_pt_lim g x e -> derivable_pt_lim (fun t => f t + g t) x (d + e).
Proof. intros. apply (derivable_pt_lim_plus f g); assumption. Qed.
Lemma dlim_upd : forall p i k, derivable_pt_lim (fun t => upd p i t k) (p i) (if Nat.eqb k i then 1 else 0).
Proof.
  intros p i k. unfold upd. destruct (Nat.eqb k i); [apply derivable_pt_lim_id|apply dlim_const].
Qed.

Definition gradient (m : nat) (w : nat -> nat -> R) (p : nat -> R) (i : nat) : R := wins m w i / p i - rate m w p i.

Lemma total_delta : forall m i f, (i < m)%nat -> total m (fun k => (if Nat.eqb k i then 1 else 0) * f k) = f i.
Proof.
  induction m as [|m IH]; intros i f Hi; [lia|]. rewrite total_S. destruct (Nat.eq_dec i m) as [->|Hne].
  - rewrite Nat.eqb_refl. rewrite (total_ext m _ (fun _ => 0)).
    + unfold total. rewrite Rsum_map_const. ring.
    + intros k Hk. destruct (Nat.eqb_spec k m); [lia|]. ring.
  - rewrite IH by lia. destruct (Nat.eqb_spec m i); [lia|]. ring.
Qed.

Lemma likelihood_partial : forall m w p i, positive m p -> (i < m)%nat ->
  partial (bt_likelihood m w) i p (gradient m w p i).
Proof.
  intros m w p i Hp Hi. unfold partial.
  set (e := fun k => if Nat.eqb k i then 1 else 0).
  apply dlim_eq with (total m (fun k => total m (fun j => w k j * (e k / p k - (e k + e j) / (p k + p j))))).
  - unfold bt_likelihood. apply dlim_total. intros k Hk. apply dlim_total. intros j Hj. apply dlim_scal.
    generalize (Hp k Hk) (Hp j Hj). intros Pk Pj.
    apply dlim_eq with (((e k * (p k + p j) - (e k + e j) * p k) / ((p k + p j) * (p k + p j))) / beats p k j).
    + assert (U : forall q : nat, upd p i (p i) q = p q) by (intro; apply upd_id).
      assert (D := dlim_ln (fun t => beats (upd p i t) k j) (p i)
        ((e k * (p k + p j) - (e k + e j) * p k) / ((p k + p j) * (p k + p j)))).
      cbv beta in D. assert (UB : beats (upd p i (p i)) k j = beats p k j) by (unfold beats; rewrite !U; reflexivity).
      rewrite UB in D. apply D; [apply Rdiv_lt_0_compat; lra|]. unfold beats.
      assert (D2 := dlim_div (fun t => upd p i t k) (fun t => upd p i t k + upd p i t j) (p i) (e k) (e k + e j)).
      cbv beta in D2. rewrite !U in D2. apply D2; [lra|apply dlim_upd|].
      apply (dlim_plus (fun t => upd p i t k) (fun t => upd p i t j)); apply dlim_upd.
    + unfold beats. field. repeat split; lra.
  - unfold gradient.
    assert (A : total m (fun k => total m (fun j => w k j * (e k / p k))) = wins m w i / p i).
    { rewrite <- (total_delta m i (fun k => wins m w k / p k) Hi). apply total_ext. intros k Hk. fold (e k).
      rewrite total_mulr. fold (wins m w k). unfold Rdiv. ring. }
    assert (B : total m (fun k => total m (fun j => w k j * ((e k + e j) / (p k + p j)))) = rate m w p i).
    { rewrite (total_ext m _ (fun k => total m (fun j => w k j * ((fun a b => e a / (p a + p b)) k j + (fun a b => e a / (p a + p b)) j k)))).
      - rewrite <- (total_games m w (fun a b => e a / (p a + p b))).
        rewrite <- (total_delta m i (fun k => rate m w p k) Hi). apply total_ext. intros k Hk. fold (e k).
        unfold rate. rewrite <- total_mul. apply total_ext. intros j Hj. unfold Rdiv. ring.
      - intros k Hk. apply total_ext. intros j Hj. rewrite (Rplus_comm (p j)). unfold Rdiv. ring. }
    rewrite <- A, <- B, <- total_sub. apply total_ext. intros k Hk. rewrite <- total_sub. apply total_ext. intros j Hj. ring.
Qed.
Lemma partial_unique : forall F i p d d', partial F i p d -> partial F i p d' -> d = d'.
Proof. intros F i p d d' H H'. exact (uniqueness_limite _ _ _ _ H H'). Qed.

Lemma stationary_balanced : forall m w p, positive m p ->
  (stationary m (bt_likelihood m w) p <-> forall i, (i < m)%nat -> wins m w i = expected m w p i).
Proof.
  intros m w p Hp. split; intros H i Hi.
  - assert (E := partial_unique _ _ _ _ _ (H i Hi) (likelihood_partial m w p i Hp Hi)). unfold gradient in E.
    rewrite expected_rate. assert (P := Hp i Hi). apply Rmult_eq_reg_r with (/ p i); [|apply Rinv_neq_0_compat; lra].
    replace (p i * rate m w p i * / p i) with (rate m w p i) by (field; lra). unfold Rdiv in E. lra.
  - eapply dlim_eq; [apply likelihood_partial; assumption|]. unfold gradient. rewrite (H i Hi), expected_rate.
    assert (P := Hp i Hi). field. lra.
Qed.
