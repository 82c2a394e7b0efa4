(** Bradley-Terry by fixed point iteration: the loop and the result. *)
From Coq Require Import List ZArith Bool Arith Reals Lia Lra Permutation.
From Verif Require Import PyBase Num ExtReal ExtRealProofs NumPy ArrayProofs SpecMos PairedComp SpecBt BtProofs.
Import ListNotations.
Local Open Scope list_scope.
Local Open Scope R_scope.

Lemma existsb_Fin : forall m (f : nat -> R) , existsb (fun x : ef => (nisnan x || nisinf x)%bool) (map (fun i => Fin (f i)) (seq 0 m)) = false.
Proof. intros m f. induction (seq 0 m) as [|x l IH]; [reflexivity|]. cbn [map existsb]. rewrite IH. reflexivity. Qed.
Lemma sp_norm_Fin : forall m f, sp_norm (map (fun i => Fin (f i)) (seq 0 m)) = Ok (Fin (sqrt (total m (fun i => f i * f i)))).
Proof.
  intros m f. unfold sp_norm. rewrite existsb_Fin. do 1 f_equal. rewrite map_map.
  rewrite (np_sum_total_ext m _ (fun i => f i * f i)) by (intros; unfold nsq; efc; reflexivity).
  efc. rewrite ef_sqrt_Fin; [reflexivity|]. apply total_nonneg. intros. nra.
Qed.
Lemma sp_norm_diff : forall m p q, sp_norm (map (fun i => nsub (vat (vec m p) i) (vat (vec m q) i)) (seq 0 m)) = Ok (Fin (distance m p q)).
Proof.
  intros m p q. unfold distance. rewrite <- (sp_norm_Fin m (fun i => p i - q i)). f_equal. apply map_ext_in. intros i Hi.
  apply in_seq0 in Hi. rewrite !vat_vec by exact Hi. efc. apply ef_sub_Fin.
Qed.
Lemma pc_thr_ef : pc_thr = Fin (1 / 100000000).
Proof. unfold pc_thr. rewrite ndec_ef by lia. reflexivity. Qed.

Lemma bt_loop_spec : forall fuel a m w p, (0 < m)%nat -> counts a m w -> nonneg_counts m w -> each_won m w -> probabilities m p ->
  bt_loop fuel a (vec m p) = Err Diverges \/
  exists q q', probabilities m q /\ probabilities m q' /\ bt_loop fuel a (vec m p) = Ok (vec m q) /\
    bt_likelihood m w p <= bt_likelihood m w q' <= bt_likelihood m w q /\
    bt_step a (vec m q') = vec m q /\ distance m q q' <= 1 / 100000000.
Proof.
  intros fuel a m w p Hm Ha Hw He. revert p. induction fuel as [|k IH]; intros p Hp; [left; reflexivity|].
  cbn [bt_loop]. rewrite (bt_step_eq a m w p) by (try assumption; apply Hp).
  destruct Ha as (E0 & E1 & H). rewrite E0. rewrite sp_norm_diff. cbn [bind]. unfold ngtb. rewrite pc_thr_ef. efc. cbn [ef_ltb].
  assert (S := step_prob m w p Hm Hw He (proj1 Hp)). assert (L := likelihood_step m w p Hm Hw He (proj1 Hp)).
  destruct (Rltb (1 / 100000000) (distance m (step m w p) p)) eqn:B.
  - destruct (IH _ S) as [D|(q & q' & Hq & Hq' & E & Lq & R1 & R2)]; [left; exact D|right].
    exists q, q'. repeat split; try apply Hq; try apply Hq'; try assumption; [lra|lra].
  - right. exists (step m w p), p. apply Rltb_false in B.
    repeat split; try apply S; try apply Hp; try assumption; try lra. apply bt_step_eq; try assumption; [|apply Hp].
    repeat split; assumption.
Qed.

Lemma ln_Fin : forall x, 0 < x -> nln (Fin x) = Fin (ln x).
Proof.
  intros x Hx. efc. cbn [ef_ln]. destruct (Rltb x 0) eqn:B; [apply Rltb_true in B; lra|].
  destruct (Req_EM_T x 0); [lra|reflexivity].
Qed.
Lemma map_nln_vec : forall m p, positive m p -> map nln (vec m p) = vec m (fun i => ln (p i)).
Proof.
  intros m p Hp. unfold vec. rewrite map_map. apply map_ext_in. intros i Hi. apply in_seq0 in Hi. apply ln_Fin, Hp, Hi.
Qed.

Lemma c47_result : forall pinv fuel a m w r, counts a m w -> nonneg_counts m w -> each_won m w ->
  bt_resolve pinv fuel a = Ok r ->
  exists p, probabilities m p /\ bt_p r = vec m p /\ bt_v r = vec m (fun i => ln (p i)).
Proof.
  intros pinv fuel a m w r Ha Hw He H. unfold bt_resolve in H. destruct Ha as (E0 & E1 & H0). rewrite E0, E1, Nat.eqb_refl in H.
  cbn [assert_ bind] in H. destruct (Nat.eqb_spec m 0) as [Z|Z]; [discriminate|].
  assert (Hm : (0 < m)%nat) by lia. rewrite (bt_start_eq m Hm) in H.
  destruct (bt_loop_spec fuel a m w _ Hm (conj E0 (conj E1 H0)) Hw He (start_prob m Hm)) as [D|(q & q' & Hq & _ & E & _)].
  - rewrite D in H. discriminate.
  - rewrite E in H. cbn [bind] in H. destruct (pinv (bordered m (bt_lbda a (vec m q)))) as [c|e]; cbn [bind] in H; [|discriminate].
    injection H as <-. exists q. split; [exact Hq|]. split; [reflexivity|]. cbn [bt_v]. apply map_nln_vec, Hq.
Qed.
Lemma c48_result : forall pinv fuel a m w r, counts a m w -> nonneg_counts m w -> each_won m w ->
  bt_resolve pinv fuel a = Ok r ->
  exists p q, bt_p r = vec m q /\ probabilities m p /\ bt_step a (vec m p) = vec m q /\
    bt_likelihood m w (fun _ => / INR m) <= bt_likelihood m w p <= bt_likelihood m w q /\ distance m q p <= 1 / 100000000.
Proof.
  intros pinv fuel a m w r Ha Hw He H. unfold bt_resolve in H. destruct Ha as (E0 & E1 & H0). rewrite E0, E1, Nat.eqb_refl in H.
  cbn [assert_ bind] in H. destruct (Nat.eqb_spec m 0) as [Z|Z]; [discriminate|].
  assert (Hm : (0 < m)%nat) by lia. rewrite (bt_start_eq m Hm) in H.
  destruct (bt_loop_spec fuel a m w _ Hm (conj E0 (conj E1 H0)) Hw He (start_prob m Hm)) as [D|(q & q' & Hq & Hq' & E & L & S & Di)].
  - rewrite D in H. discriminate.
  - rewrite E in H. cbn [bind] in H. destruct (pinv (bordered m (bt_lbda a (vec m q)))) as [c|e]; cbn [bind] in H; [|discriminate].
    injection H as <-. exists q', q. repeat split; try assumption; try apply Hq'; lra.
Qed.
(** The only ways not to return a result. *)
Lemma c47_outcome : forall pinv fuel a m w e, (0 < m)%nat -> counts a m w -> nonneg_counts m w -> each_won m w ->
  bt_resolve pinv fuel a = Err e -> e = Diverges \/ exists x, pinv x = Err e.
Proof.
  intros pinv fuel a m w e Hm Ha Hw He H. unfold bt_resolve in H. destruct Ha as (E0 & E1 & H0). rewrite E0, E1, Nat.eqb_refl in H.
  cbn [assert_ bind] in H. destruct (Nat.eqb_spec m 0) as [Z|Z]; [lia|]. rewrite (bt_start_eq m Hm) in H.
  destruct (bt_loop_spec fuel a m w _ Hm (conj E0 (conj E1 H0)) Hw He (start_prob m Hm)) as [D|(q & q' & Hq & Hq' & E & L & S & Di)].
  - rewrite D in H. left. cbn in H. congruence.
  - rewrite E in H. cbn [bind] in H. destruct (pinv (bordered m (bt_lbda a (vec m q)))) as [c|e'] eqn:P; cbn [bind] in H; [discriminate|].
    right. exists (bordered m (bt_lbda a (vec m q))). rewrite P. congruence.
Qed.

(** The win matrix of an array of votes. *)
Lemma win_counts : forall a m, dE a = m -> dS a = m -> finite_votes a -> counts (win_matrix a) m (preferences a).
Proof.
  intros a m E S H. unfold counts, win_matrix. cbn [n0 n1 at2]. repeat split; try assumption. intros i j Hi Hj.
  rewrite np_nansum_finnan; [reflexivity|]. apply Forall_forall. intros x Hx. apply in_map_iff in Hx.
  destruct Hx as [r [<- Hr]]. apply in_seq0 in Hr. apply H. unfold inside. lia.
Qed.

Lemma c48_step : forall a m w p, (0 < m)%nat -> counts a m w -> nonneg_counts m w -> each_won m w -> positive m p ->
  exists q, bt_step a (vec m p) = vec m q /\ probabilities m q /\ bt_likelihood m w p <= bt_likelihood m w q.
Proof.
  intros a m w p Hm Ha Hw He Hp. exists (step m w p). split; [apply bt_step_eq; assumption|]. split; [apply step_prob; assumption|].
  apply likelihood_step; assumption.
Qed.

Lemma c49_fixed : forall a m w p, (0 < m)%nat -> counts a m w -> nonneg_counts m w -> each_won m w -> probabilities m p ->
  (bt_step a (vec m p) = vec m p <-> forall i, (i < m)%nat -> wins m w i = expected m w p i) /\
  ((exists c, forall i, (i < m)%nat -> wins m w i = c * expected m w p i) <-> forall i, (i < m)%nat -> wins m w i = expected m w p i) /\
  (bt_step a (vec m p) = vec m p <-> stationary m (bt_likelihood m w) p).
Proof.
  intros a m w p Hm Ha Hw He Hp.
  assert (F : bt_step a (vec m p) = vec m p <-> forall i, (i < m)%nat -> wins m w i = expected m w p i).
  { rewrite (bt_step_eq a m w p) by (try assumption; apply Hp). rewrite <- (fixed_balanced m w p Hm Hw He Hp). split.
    - apply vec_inj.
    - apply vec_ext. }
  split; [exact F|]. split.
  - split.
    + intros [c Hc] i Hi. rewrite (Hc i Hi), (balanced_common m w p c Hm He (proj1 Hp) Hc). ring.
    + intros H. exists 1. intros i Hi. rewrite (H i Hi). ring.
  - rewrite F. symmetry. apply stationary_balanced, Hp.
Qed.
