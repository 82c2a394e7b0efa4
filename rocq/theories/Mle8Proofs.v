(** Maximum likelihood models: a pass as damped Newton steps (C37). *)
From Coq Require Import String.
From Coq Require Import List ZArith Bool Arith Reals Lra Lia.
From Verif Require Import PyBase Num ExtReal NumPy Dataset Preproc Mos AP Mle SpecMos SpecAp SpecMle
  BaseProofs ExtRealProofs ArrayProofs StepsProofs MosProofs ApProofs Ap2Proofs Ap6Proofs MleProofs Mle2Proofs Mle3Proofs Mle4Proofs Mle5Proofs Mle6Proofs Mle7Proofs.
Import ListNotations.
Local Open Scope list_scope.
Local Open Scope R_scope.

Lemma nth_vmap2 : forall (f : ef -> ef -> ef) u v i, (i < length u)%nat -> (i < length v)%nat -> nth i (vmap2 f u v) NaN = f (nth i u NaN) (nth i v NaN).
Proof.
  intros f u. induction u as [|a u IH]; intros [|b v] i Hu Hv; cbn in Hu, Hv; try lia. destruct i as [|i]; [reflexivity|]. cbn. apply IH; lia.
Qed.
Lemma nth_map_ef : forall (f : ef -> ef) u i, (i < length u)%nat -> nth i (map f u) NaN = f (nth i u NaN).
Proof. intros f u i H. rewrite (nth_indep _ NaN (f NaN)) by (rewrite map_length; exact H). apply map_nth. Qed.
Lemma refresh_damped : forall u v i t, (i < length u)%nat -> (i < length v)%nat -> nth i u NaN = Fin t -> nth i (refresh u v) NaN = damped t (nth i v NaN).
Proof.
  intros u v i t Hu Hv E. unfold refresh. rewrite nth_vmap2 by assumption. rewrite E. unfold damped, refresh_rate, none_, ndec. efc.
  rewrite ef_div_Fin by lra. rewrite ef_sub_Fin. replace (1 - 1 / 10) with (9 / 10) by field. reflexivity.
Qed.
Lemma clip_spec : forall y, nmaximum y (nmul nzero none_) = clipped y.
Proof.
  intros [r| | |]; unfold nmaximum, nzero, none_; cbn; try reflexivity.
  - unfold Rltb. destruct (Rlt_dec (0 * 1) r).
    + rewrite Rmax_left by lra. reflexivity.
    + rewrite Rmax_right by lra. f_equal. ring.
  - f_equal. ring.
Qed.
Lemma std_spec : forall y, inv_sqrt_pos y = std_of y.
Proof.
  intros [c| | |].
  - cbn [std_of]. destruct (Rlt_dec 0 c) as [H|H].
    + apply inv_sqrt_pos_Fin. exact H.
    + apply inv_sqrt_pos_neg. lra.
  - apply inv_sqrt_pos_inf.
  - unfold inv_sqrt_pos, nmaximum, nzero, none_. cbn. unfold Rltb. destruct (Rlt_dec 0 0); [lra|]. rewrite sqrt_0. destruct (Req_EM_T 0 0); [|lra]. destruct (Req_EM_T 1 0); [lra|].
    destruct (Rlt_dec 0 1); [reflexivity|lra].
  - reflexivity.
Qed.

Section Pass.
  Variables (mode : mlemode) (g : gradmethod) (pdf : pdfkind) (x : arr3 ef) (cids : list nat) (C : nat) (q b v a : list ef) (st : mlest ef).
  Hypothesis (HF : finite_votes x) (HC : fits x cids C) (HG : g = Simplified \/ g = Original).
  Hypothesis HP : mle_pass mode g pdf x cids C q b v a = Ok st.
  Let cid := cid_of cids.

  Lemma len_b_o : forall q b v a, length b = dS x -> length (fst (b_original x cids q b v a)) = dS x /\ length (snd (b_original x cids q b v a)) = dS x.
  Proof. intros. unfold b_original. cbn [fst snd]. rewrite !map_length, !len_vmap2, !len_sum_e. cbn. lia. Qed.
  Lemma len_v_s : forall q b v a, length v = dS x -> length (fst (v_simplified x cids q b v a)) = dS x /\ length (snd (v_simplified x cids q b v a)) = dS x.
  Proof. intros. unfold v_simplified. cbn [fst snd]. rewrite !map_length, !len_vmap2, !len_sum_e. cbn. lia. Qed.
  Lemma len_x_o : forall q b v a, length q = dE x -> length (fst (x_original x cids q b v a)) = dE x /\ length (snd (x_original x cids q b v a)) = dE x.
  Proof. intros. unfold x_original. cbn [fst snd]. rewrite !map_length, !len_vmap2, !len_sum_s. cbn. lia. Qed.
  Lemma len_cid : forall l, length (sum_over_cid l cids C) = C.
  Proof. intro l. unfold sum_over_cid. rewrite map_length, seq_length. reflexivity. Qed.
  Lemma len_a_s : forall q b v a, length a = C -> length (fst (a_simplified x cids C q b v a)) = C /\ length (snd (a_simplified x cids C q b v a)) = C.
  Proof. intros. unfold a_simplified. cbn [fst snd]. rewrite !map_length, !len_vmap2, !len_cid. lia. Qed.

  (** The pass step by step. *)
  Lemma pass_parts : exists pb pv pa px,
    ((pb = b_simplified x cids q b v a \/ pb = b_original x cids q b v a)) /\
    pv = v_simplified x cids q (sb st) v a /\ pa = a_simplified x cids C q (sb st) (sv st) a /\
    (px = x_simplified x cids q (sb st) (sv st) (sa st) \/ px = x_original x cids q (sb st) (sv st) (sa st)) /\
    (mode <> SubjectOblivious -> sb st = refresh b (fst pb) /\ sb_std st = map inv_sqrt_pos (snd pb) /\ sv st = clip0 (refresh v (fst pv)) /\ sv_std st = map inv_sqrt_pos (snd pv)) /\
    (mode <> ContentOblivious -> sa st = clip0 (refresh a (fst pa)) /\ sa_std st = map inv_sqrt_pos (snd pa)) /\
    sx st = refresh q (fst px) /\ sx_std st = map inv_sqrt_pos (snd px).
  Proof.
    unfold mle_pass in HP. destruct HG as [-> | ->]; cbn [pick bind] in HP; apply Ok_inj in HP; rewrite <- HP; cbn [sb sv sa sx sb_std sv_std sa_std sx_std];
      rewrite ?v_same, ?a_same; do 4 eexists.
    - split; [left; reflexivity|]. split; [reflexivity|]. split; [reflexivity|]. split; [left; reflexivity|].
      split; [intro N; destruct mode; try contradiction; repeat split; reflexivity|]. split; [intro N; destruct mode; try contradiction; repeat split; reflexivity|].
      split; reflexivity.
    - split; [right; reflexivity|]. split; [reflexivity|]. split; [reflexivity|]. split; [right; reflexivity|].
      split; [intro N; destruct mode; try contradiction; repeat split; reflexivity|]. split; [intro N; destruct mode; try contradiction; repeat split; reflexivity|].
      split; reflexivity.
  Qed.

  Lemma c37_bias : mode <> SubjectOblivious -> forall p, holds x cids C p q b v a -> regular x cid p -> forall i, (i < dS x)%nat -> voted x i ->
    updated (fun y => y) (fun t => log_lik x cid (with_b p i t)) (pb p i) (nth i (sb st) NaN) (nth i (sb_std st) NaN).
  Proof.
    intros M p HH HR i Hi V. destruct pass_parts as (pb' & pv' & pa' & px' & E1 & E2 & E3 & E4 & E5 & E6 & E7 & E8). destruct (E5 M) as (B1 & B2 & _).
    assert (E : pb' = b_original x cids q b v a) by (destruct E1 as [->| ->]; [apply (b_agree x cids C p q b v a HF HC HH HR)|reflexivity]). subst pb'.
    destruct (len_b_o q b v a (h_lb _ _ _ _ _ _ _ _ HH)) as [L1 L2]. assert (Lb := h_lb _ _ _ _ _ _ _ _ HH).
    exists (nth i (fst (b_original x cids q b v a)) NaN), (nth i (snd (b_original x cids q b v a)) NaN).
    split; [apply (newton_b_original x cids C p q b v a HF HC HH HR); assumption|]. rewrite B1, B2. split.
    - apply refresh_damped; [lia|lia|]. apply (h_b _ _ _ _ _ _ _ _ HH); assumption.
    - rewrite nth_map_ef by lia. apply std_spec.
  Qed.
  Lemma c37_inconsistency : mode <> SubjectOblivious -> forall p, holds x cids C p q (sb st) v a -> regular x cid p -> forall i, (i < dS x)%nat -> voted x i ->
    updated clipped (fun t => log_lik x cid (with_v p i t)) (pv p i) (nth i (sv st) NaN) (nth i (sv_std st) NaN).
  Proof.
    intros M p HH HR i Hi V. destruct pass_parts as (pb' & pv' & pa' & px' & E1 & E2 & E3 & E4 & E5 & E6 & E7 & E8). destruct (E5 M) as (_ & _ & B1 & B2). subst pv'.
    assert (Lv := h_lv _ _ _ _ _ _ _ _ HH). destruct (len_v_s q (sb st) v a Lv) as [L1 L2].
    exists (nth i (fst (v_simplified x cids q (sb st) v a)) NaN), (nth i (snd (v_simplified x cids q (sb st) v a)) NaN).
    split; [apply (newton_v x cids C p q (sb st) v a HF HC HH HR); assumption|]. rewrite B1, B2. split.
    - unfold clip0. rewrite nth_map_ef by (rewrite len_refresh; lia). rewrite clip_spec. f_equal. apply refresh_damped; [lia|lia|]. apply (h_v _ _ _ _ _ _ _ _ HH); assumption.
    - rewrite nth_map_ef by lia. apply std_spec.
  Qed.
  Lemma c37_ambiguity : mode <> ContentOblivious -> forall p, holds x cids C p q (sb st) (sv st) a -> regular x cid p -> forall c, content_rated x cid c ->
    updated clipped (fun t => log_lik x cid (with_a p c t)) (pa p c) (nth c (sa st) NaN) (nth c (sa_std st) NaN).
  Proof.
    intros M p HH HR c V. destruct pass_parts as (pb' & pv' & pa' & px' & E1 & E2 & E3 & E4 & E5 & E6 & E7 & E8). destruct (E6 M) as (B1 & B2). subst pa'.
    assert (La := h_la _ _ _ _ _ _ _ _ HH). destruct (len_a_s q (sb st) (sv st) a La) as [L1 L2].
    assert (Hc : (c < C)%nat).
    { destruct V as (e & He & <- & _). destruct HC as [L F]. rewrite Forall_forall in F. apply F. unfold cid, cid_of. apply nth_In. lia. }
    exists (nth c (fst (a_simplified x cids C q (sb st) (sv st) a)) NaN), (nth c (snd (a_simplified x cids C q (sb st) (sv st) a)) NaN).
    split; [apply (newton_a x cids C p q (sb st) (sv st) a HF HC HH HR); assumption|]. rewrite B1, B2. split.
    - unfold clip0. rewrite nth_map_ef by (rewrite len_refresh; lia). rewrite clip_spec. f_equal. apply refresh_damped; [lia|lia|]. apply (h_a _ _ _ _ _ _ _ _ HH); assumption.
    - rewrite nth_map_ef by lia. apply std_spec.
  Qed.
  Lemma c37_quality : forall p, holds x cids C p q (sb st) (sv st) (sa st) -> regular x cid p -> forall e, (e < dE x)%nat -> rated x e ->
    updated (fun y => y) (fun t => log_lik x cid (with_q p e t)) (pq p e) (nth e (sx st) NaN) (nth e (sx_std st) NaN).
  Proof.
    intros p HH HR i Hi V. destruct pass_parts as (pb' & pv' & pa' & px' & E1 & E2 & E3 & E4 & E5 & E6 & E7 & E8).
    assert (E : px' = x_original x cids q (sb st) (sv st) (sa st)) by (destruct E4 as [->| ->]; [apply (x_agree x cids C p q (sb st) (sv st) (sa st) HF HC HH HR)|reflexivity]). subst px'.
    assert (Lq := h_lq _ _ _ _ _ _ _ _ HH). destruct (len_x_o q (sb st) (sv st) (sa st) Lq) as [L1 L2].
    exists (nth i (fst (x_original x cids q (sb st) (sv st) (sa st))) NaN), (nth i (snd (x_original x cids q (sb st) (sv st) (sa st))) NaN).
    split; [apply (newton_x_original x cids C p q (sb st) (sv st) (sa st) HF HC HH HR); assumption|]. rewrite E7, E8. split.
    - apply refresh_damped; [lia|lia|]. apply (h_q _ _ _ _ _ _ _ _ HH); assumption.
    - rewrite nth_map_ef by lia. apply std_spec.
  Qed.
End Pass.
