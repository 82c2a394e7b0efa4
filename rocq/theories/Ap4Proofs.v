(** Equivariance of the projection solver. *)
From Coq Require Import String.
From Coq Require Import List ZArith Bool Arith Reals Lra Lia Permutation.
From Verif Require Import PyBase Num ExtReal NumPy Dataset Preproc Mos AP SpecMos SpecAp
  BaseProofs ExtRealProofs ArrayProofs MosProofs ApProofs Ap2Proofs Ap3Proofs.
Import ListNotations.
Local Open Scope list_scope.
Local Open Scope R_scope.

Lemma Rsum_reorder : forall n p (f : nat -> R), permutes n p -> Rsum (map (fun k => f (p k)) (seq 0 n)) = Rsum (map f (seq 0 n)).
Proof.
  intros n p f H. rewrite <- (map_map p f). apply Rsum_perm. apply Permutation_map. apply permutes_surj_perm. exact H.
Qed.
Lemma permutes_onto : forall n p k, permutes n p -> (k < n)%nat -> exists j, (j < n)%nat /\ p j = k.
Proof.
  intros n p k H Hk. assert (G := permutes_surj_perm n p H).
  assert (I : In k (map p (seq 0 n))) by (apply (Permutation_in k (Permutation_sym G)); apply in_seq; lia).
  apply in_map_iff in I as (j & E & Hj). apply in_seq in Hj. exists j. split; [lia|exact E].
Qed.

Section Rearranged.
  Context (x y : arr3 ef) (pi sg : nat -> nat) (d : nat -> R) (mu : R).
  Hypothesis HF : finite_votes x.
  Hypothesis HA : rearranged x y pi sg d.

  Lemma re_pi : forall e, (e < dE x)%nat -> (pi e < dE x)%nat.
  Proof. destruct HA as ((H & _) & _). exact H. Qed.
  Lemma re_sg : forall i, (i < dS x)%nat -> (sg i < dS x)%nat.
  Proof. destruct HA as (_ & (H & _) & _). exact H. Qed.
  Lemma re_E : dE y = dE x. Proof. apply HA. Qed.
  Lemma re_S : dS y = dS x. Proof. apply HA. Qed.
  Lemma re_R : dR y = dR x. Proof. apply HA. Qed.
  Lemma re_at : forall e i r, inside x e i r -> at3 y e i r = affine 1 (d i) (at3 x (pi e) (sg i) r).
  Proof. apply HA. Qed.

  Lemma re_finite : finite_votes y.
  Proof.
    intros e i r (He & Hi & Hr). rewrite re_E in He. rewrite re_S in Hi. rewrite re_R in Hr. rewrite re_at by (repeat split; assumption).
    assert (G := HF (pi e) (sg i) r ltac:(repeat split; [apply re_pi|apply re_sg|]; assumption)). destruct (at3 x (pi e) (sg i) r); cbn in *; try contradiction; exact I.
  Qed.
  Lemma re_vsum : forall e g, (e < dE x)%nat -> vsum x (pi e) g = vsum y e (fun i v => g (sg i) (v - d i)).
  Proof.
    intros e g He. unfold vsum. rewrite re_S, re_R.
    rewrite <- (Rsum_reorder (dS x) sg (fun i => Rsum (map (fun r => vote_term (g i) (at3 x (pi e) i r)) (seq 0 (dR x))))) by apply HA.
    apply Rsum_map_ext. intros i Hi. apply in_seq in Hi. apply Rsum_map_ext. intros r Hr. apply in_seq in Hr.
    rewrite re_at by (repeat split; lia). destruct (at3 x (pi e) (sg i) r); cbn [affine vote_term]; try reflexivity. f_equal. ring.
  Qed.
  Lemma re_ssum : forall i g, (i < dS x)%nat -> ssum x (sg i) g = ssum y i (fun e v => g (pi e) (v - d i)).
  Proof.
    intros i g Hi. unfold ssum. rewrite re_E, re_R.
    rewrite <- (Rsum_reorder (dE x) pi (fun e => Rsum (map (fun r => vote_term (g e) (at3 x e (sg i) r)) (seq 0 (dR x))))) by apply HA.
    apply Rsum_map_ext. intros e He. apply in_seq in He. apply Rsum_map_ext. intros r Hr. apply in_seq in Hr.
    rewrite re_at by (repeat split; lia). destruct (at3 x (pi e) (sg i) r); cbn [affine vote_term]; try reflexivity. f_equal. ring.
  Qed.
  Lemma re_vcount : forall e, (e < dE x)%nat -> vcount x (pi e) = vcount y e.
  Proof. intros e He. unfold vcount. apply re_vsum. exact He. Qed.
  Lemma re_scount : forall i, (i < dS x)%nat -> scount x (sg i) = scount y i.
  Proof. intros e He. unfold scount. apply re_ssum. exact He. Qed.
  Lemma re_voted : forall i, (i < dS x)%nat -> voted y i <-> voted x (sg i).
  Proof.
    intros i Hi. split; intro V.
    - apply scount_voted; [apply re_sg; exact Hi|]. rewrite re_scount by exact Hi. apply voted_count in V. lra.
    - apply scount_voted; [rewrite re_S; exact Hi|]. rewrite <- re_scount by exact Hi. apply voted_count in V. lra.
  Qed.
  Lemma re_all_rated : all_rated x -> all_rated y.
  Proof.
    intros HR e He. rewrite re_E in He. apply vcount_rated; [rewrite re_E; exact He|]. rewrite <- re_vcount by exact He.
    assert (G := rated_count x (pi e) (HR (pi e) (re_pi e He))). lra.
  Qed.
  Lemma re_all_voted : all_voted x <-> all_voted y.
  Proof.
    split; intros HV i Hi.
    - rewrite re_S in Hi. apply re_voted; [exact Hi|]. apply HV. apply re_sg. exact Hi.
    - destruct (permutes_onto (dS x) sg i ltac:(apply HA) Hi) as (j & Hj & <-). apply re_voted; [exact Hj|]. apply HV. rewrite re_S. exact Hj.
  Qed.
  Lemma re_total_votes : total_votes y = total_votes x.
  Proof.
    unfold total_votes. rewrite re_E. rewrite <- (Rsum_reorder (dE x) pi (vcount x)) by apply HA. apply Rsum_map_ext. intros e He. apply in_seq in He.
    symmetry. apply re_vcount. lia.
  Qed.

  (** Estimates for y in terms of those for x. *)
  Definition match_est (p p' : est) : Prop :=
    (forall e, (e < dE x)%nat -> eq_ p' e = eq_ p (pi e) + mu) /\
    (forall i, (i < dS x)%nat -> voted y i -> eb_ p' i = eb_ p (sg i) + d i - mu).

  Hypothesis HR : all_rated x.
  Hypothesis HB : balanced y d mu.

  Lemma re_mean_vote : forall e, (e < dE x)%nat -> mean_vote y e = mean_vote x (pi e) + mu.
  Proof.
    intros e He. unfold mean_vote. rewrite re_vcount, re_vsum by exact He.
    rewrite (vsum_sub y e (fun _ v => v) (fun i _ => d i)). rewrite HB by (rewrite re_E; exact He).
    assert (G := rated_count y e (re_all_rated HR e ltac:(rewrite re_E; exact He))). field. lra.
  Qed.
  Lemma re_mean_diff : forall q q' i, (forall e, (e < dE x)%nat -> q' e = q (pi e) + mu) -> (i < dS x)%nat -> voted y i ->
    mean_diff y q' i = mean_diff x q (sg i) + d i - mu.
  Proof.
    intros q q' i Hq Hi V. unfold mean_diff. rewrite re_scount, re_ssum by exact Hi.
    assert (G := voted_count y i V).
    assert (E : ssum y i (fun e v => v - d i - q (pi e)) = ssum y i (fun e v => v - q' e) - (d i - mu) * scount y i).
    { rewrite <- ssum_const. rewrite <- ssum_sub. apply ssum_ext. intros e r v He _ _. rewrite re_E in He. rewrite Hq by exact He. ring. }
    rewrite E. field. lra.
  Qed.
  Lemma re_start : match_est (start x) (start y).
  Proof.
    split; cbn [start eq_ eb_].
    - apply re_mean_vote.
    - intros i Hi V. apply re_mean_diff; [|exact Hi|exact V]. apply re_mean_vote.
  Qed.
  Lemma re_rms : forall p p' i, match_est p p' -> (i < dS x)%nat -> voted y i -> rms y p' i = rms x p (sg i).
  Proof.
    intros p p' i (Hq & Hb) Hi V. unfold rms. rewrite re_scount, re_ssum by exact Hi. f_equal. f_equal.
    apply ssum_ext. intros e r v He _ _. rewrite re_E in He. rewrite Hq by exact He. rewrite Hb by assumption.
    replace (v - d i - eq_ p (pi e) - eb_ p (sg i)) with (v - (eq_ p (pi e) + mu) - (eb_ p (sg i) + d i - mu)) by ring. reflexivity.
  Qed.
  Lemma re_voted_in : forall e i r v, (e < dE x)%nat -> (i < dS y)%nat -> (r < dR y)%nat -> at3 y e i r = Fin v -> voted y i.
  Proof. intros e i r v He Hi Hr E. exists e, r, v. split; [|exact E]. repeat split; [rewrite re_E; exact He|exact Hi|exact Hr]. Qed.
  Lemma re_weight : forall p p' i, match_est p p' -> (i < dS x)%nat -> voted y i -> weight y p' i = weight x p (sg i).
  Proof. intros p p' i M Hi V. unfold weight. rewrite (re_rms p p') by assumption. reflexivity. Qed.
  Lemma re_next : forall p p', match_est p p' -> match_est (next x p) (next y p').
  Proof.
    intros p p' M.
    assert (Q : forall e, (e < dE x)%nat -> debiased_mean y p' e = debiased_mean x p (pi e) + mu).
    { intros e He. unfold debiased_mean. rewrite !re_vsum by exact He.
      assert (W : vsum y e (fun i _ => weight x p (sg i)) = vsum y e (fun i _ => weight y p' i)).
      { apply vsum_ext. intros i r v Hi Hr E. assert (V := re_voted_in e i r v He Hi Hr E). rewrite re_S in Hi. symmetry. apply re_weight; assumption. }
      rewrite W.
      assert (P : 0 < vsum y e (fun i _ => weight y p' i)).
      { apply rated_pos; [apply re_all_rated; [exact HR|rewrite re_E; exact He]|]. intros. apply weight_pos. }
      assert (N : vsum y e (fun i v => weight x p (sg i) * (v - d i - eb_ p (sg i))) =
                  vsum y e (fun i v => weight y p' i * (v - eb_ p' i)) - mu * vsum y e (fun i _ => weight y p' i)).
      { rewrite <- vsum_mul. rewrite <- vsum_sub. apply vsum_ext. intros i r v Hi Hr E. assert (V := re_voted_in e i r v He Hi Hr E). rewrite re_S in Hi.
        rewrite (re_weight p p' i M Hi V). destruct M as (_ & Hb). rewrite (Hb i Hi V). ring. }
      rewrite N. field. lra. }
    split; cbn [next eq_ eb_]; [exact Q|]. intros i Hi V. apply re_mean_diff; assumption.
  Qed.
  Lemma re_iterate : forall n, match_est (iterate x n) (iterate y n).
  Proof. induction n as [|n IH]; cbn [iterate]; [apply re_start|apply re_next; exact IH]. Qed.
  Lemma re_change : forall n, change y n = change x n.
  Proof.
    intro n. unfold change. f_equal. rewrite re_E.
    rewrite <- (Rsum_reorder (dE x) pi (fun e => (eq_ (iterate x n) e - eq_ (iterate x (S n)) e) * (eq_ (iterate x n) e - eq_ (iterate x (S n)) e))) by apply HA.
    apply Rsum_map_ext. intros e He. apply in_seq in He. destruct (re_iterate n) as (H1 & _). destruct (re_iterate (S n)) as (H2 & _).
    rewrite H1, H2 by lia. ring.
  Qed.
  Lemma re_stops : forall n, stops x n <-> stops y n.
  Proof.
    intro n. unfold stops. rewrite re_change.
    split; intros (H1 & H2 & H3); repeat split; try lia; try exact H2; intros m Hm; specialize (H3 m Hm); rewrite re_change in *; exact H3.
  Qed.

  (** Reported quantities. *)
  Lemma re_res : forall p p' e i v, match_est p p' -> (e < dE x)%nat -> (i < dS x)%nat -> voted y i ->
    v - d i - eq_ p (pi e) - eb_ p (sg i) = v - eq_ p' e - eb_ p' i.
  Proof. intros p p' e i v (Hq & Hb) He Hi V. rewrite Hq, Hb by assumption. ring. Qed.
  Lemma re_quality_se : forall p p' e, match_est p p' -> (e < dE x)%nat -> quality_se y p' e = quality_se x p (pi e).
  Proof.
    intros p p' e M He. unfold quality_se. rewrite !re_vsum by exact He.
    assert (E1 : vsum y e (fun i _ => if Req_EM_T (rms x p (sg i)) 0 then 1 else 0) = vsum y e (fun i _ => if Req_EM_T (rms y p' i) 0 then 1 else 0)).
    { apply vsum_ext. intros i r v Hi Hr E. assert (V := re_voted_in e i r v He Hi Hr E). rewrite re_S in Hi. rewrite (re_rms p p' i M Hi V). reflexivity. }
    assert (E2 : vsum y e (fun i _ => 1 / (rms x p (sg i) * rms x p (sg i))) = vsum y e (fun i _ => 1 / (rms y p' i * rms y p' i))).
    { apply vsum_ext. intros i r v Hi Hr E. assert (V := re_voted_in e i r v He Hi Hr E). rewrite re_S in Hi. rewrite (re_rms p p' i M Hi V). reflexivity. }
    rewrite E1, E2. reflexivity.
  Qed.
  Lemma re_spread : forall p p' e, match_est p p' -> (e < dE x)%nat -> video_spread y p' e = video_spread x p (pi e).
  Proof.
    intros p p' e M He.
    assert (EM : mean_residual x p (pi e) = mean_residual y p' e).
    { unfold mean_residual. rewrite re_vcount, re_vsum by exact He. f_equal. apply vsum_ext. intros i r v Hi Hr E.
      assert (V := re_voted_in e i r v He Hi Hr E). rewrite re_S in Hi. apply (re_res p p'); assumption. }
    unfold video_spread. rewrite EM. rewrite re_vcount, re_vsum by exact He. f_equal. f_equal. apply vsum_ext. intros i r v Hi Hr E.
    assert (V := re_voted_in e i r v He Hi Hr E). rewrite re_S in Hi. rewrite (re_res p p' e i v M He Hi V). reflexivity.
  Qed.
  Lemma re_curvature : forall p p' q q' i, match_est p p' -> match_est q q' -> (i < dS x)%nat -> voted y i ->
    curvature y p' q' i = curvature x p q (sg i).
  Proof.
    intros p p' q q' i M M' Hi V. unfold curvature. rewrite (re_rms p p' i M Hi V). rewrite re_scount, re_ssum by exact Hi.
    f_equal. f_equal. f_equal. apply ssum_ext. intros e r v He _ _. rewrite re_E in He. rewrite <- (re_res q q' e i v M' He Hi V). reflexivity.
  Qed.
  Lemma re_incons_se : forall p p' q q' i, match_est p p' -> match_est q q' -> (i < dS x)%nat -> voted y i ->
    incons_se y p' q' i = incons_se x p q (sg i).
  Proof.
    intros p p' q q' i M M' Hi V. unfold incons_se. rewrite (re_rms p p' i M Hi V), (re_curvature p p' q q' i M M' Hi V). reflexivity.
  Qed.
  Lemma re_total_ll : forall p p' q q', match_est p p' -> match_est q q' -> total_ll y p' q' = total_ll x p q.
  Proof.
    intros p p' q q' M M'. unfold total_ll. rewrite re_E.
    rewrite <- (Rsum_reorder (dE x) pi (fun e => vsum x e (fun i v => log_density v (eq_ q e + eb_ q i) (rms x p i)))) by apply HA.
    apply Rsum_map_ext. intros e He. apply in_seq in He. rewrite re_vsum by lia. apply vsum_ext. intros i r v Hi Hr E.
    assert (V := re_voted_in e i r v ltac:(lia) Hi Hr E). rewrite re_S in Hi. rewrite (re_rms p p' i M Hi V). destruct M' as (Hq & Hb).
    rewrite Hq by lia. rewrite Hb by assumption. unfold log_density.
    replace (v - d i - (eq_ q (pi e) + eb_ q (sg i))) with (v - (eq_ q (pi e) + mu + (eb_ q (sg i) + d i - mu))) by ring. reflexivity.
  Qed.
  Lemma re_all_spread : forall p p', match_est p p' -> (all_spread x p <-> all_spread y p').
  Proof.
    intros p p' M. split; intros H i Hi V.
    - rewrite re_S in Hi. rewrite (re_rms p p' i M Hi V). apply H; [apply re_sg; exact Hi|]. apply re_voted; assumption.
    - destruct (permutes_onto (dS x) sg i ltac:(apply HA) Hi) as (j & Hj & <-).
      assert (V' : voted y j) by (apply re_voted; assumption). rewrite <- (re_rms p p' j M Hj V'). apply H; [rewrite re_S; exact Hj|exact V'].
  Qed.
  Lemma re_mean_bias : forall p p', match_est p p' -> all_voted y -> (0 < dS x)%nat ->
    mean_bias y p' = mean_bias x p + Rmean (map d (seq 0 (dS x))) - mu.
  Proof.
    intros p p' (_ & Hb) HV Hd. unfold mean_bias, Rmean. rewrite re_S, !map_length, seq_length.
    assert (E : Rsum (map (eb_ p') (seq 0 (dS x))) = Rsum (map (eb_ p) (seq 0 (dS x))) + Rsum (map d (seq 0 (dS x))) - INR (dS x) * mu).
    { rewrite <- (Rsum_reorder (dS x) sg (eb_ p)) by apply HA. rewrite <- Rsum_map_add.
      replace (INR (dS x) * mu) with (Rsum (map (fun _ : nat => mu) (seq 0 (dS x)))) by (rewrite Rsum_map_const, seq_length; ring).
      rewrite <- Rsum_map_sub. apply Rsum_map_ext. intros i Hi. apply in_seq in Hi. apply Hb; [lia|]. apply HV. rewrite re_S. lia. }
    rewrite E. field. apply not_0_INR. lia.
  Qed.
  Lemma re_subject_mean : forall i, (i < dS x)%nat -> voted y i -> Rmean (subject_votes y i) = Rmean (subject_votes x (sg i)) + d i.
  Proof.
    intros i Hi V. rewrite !subject_mean. rewrite re_scount, re_ssum by exact Hi. assert (G := voted_count y i V).
    rewrite (ssum_sub y i (fun _ v => v) (fun _ _ => d i)), ssum_const. field. lra.
  Qed.
End Rearranged.
