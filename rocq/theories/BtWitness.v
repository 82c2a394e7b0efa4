(** A small comparison for the paired comparison models. *)
From Coq Require Import List ZArith Bool Arith Reals Lia Lra Permutation.
From Verif Require Import PyBase Num ExtReal ExtRealProofs NumPy ArrayProofs SpecMos PairedComp SpecBt BtProofs Bt2Proofs Bt3Proofs Bt4Proofs Bt5Proofs Bt6Proofs NormalCdf.
Import ListNotations.
Local Open Scope list_scope.
Local Open Scope R_scope.

(** Two videos, the first preferred twice and the second once *)
Definition wb (i j : nat) : R := match i, j with O, 1%nat => 2 | 1%nat, O => 1 | _, _ => 0 end.
Definition wb_arr : arr2 ef := Arr2 2 2 (fun i j => Fin (wb i j)).
Definition wb_p (i : nat) : R := match i with O => 2 / 3 | _ => 1 / 3 end.
Lemma total2 : forall f, total 2 f = f 0%nat + f 1%nat.
Proof. intro f. unfold total, Rsum. cbn. ring. Qed.
Lemma lt2 : forall i, (i < 2)%nat -> i = 0%nat \/ i = 1%nat. Proof. lia. Qed.
Ltac two := repeat match goal with H : (?i < 2)%nat |- _ => destruct (lt2 i H); subst i; clear H end.
Lemma wb_counts : counts wb_arr 2 wb. Proof. repeat split. Qed.
Lemma wb_nonneg : nonneg_counts 2 wb. Proof. intros i j Hi Hj. two; unfold wb; lra. Qed.
Lemma wb_won : each_won 2 wb. Proof. intros i Hi. unfold wins. rewrite total2. two; unfold wb; lra. Qed.
Lemma wb_self : no_self 2 wb. Proof. intros i Hi. two; reflexivity. Qed.
Lemma wb_prob : probabilities 2 wb_p. Proof. split; [intros i Hi; two; unfold wb_p; lra|rewrite total2; unfold wb_p; lra]. Qed.
Lemma wb_step : forall p, positive 2 p -> p 0%nat + p 1%nat = 1 -> p 0%nat = 1 / 2 \/ p 0%nat = 2 / 3 -> bt_step wb_arr (vec 2 p) = vec 2 wb_p.
Proof.
  intros p Hp Hs Hd. rewrite (bt_step_eq wb_arr 2 wb p) by (try lia; auto using wb_counts, wb_nonneg, wb_won).
  apply vec_ext. intros i Hi. assert (P1 : p 1%nat = 1 - p 0%nat) by lra.
  unfold step. rewrite total2. unfold raw, rate, wins. rewrite !total2. unfold games. rewrite !P1.
  destruct Hd as [D|D]; two; rewrite ?P1, D; unfold wb, wb_p; field.
Qed.

Lemma zero_norm : distance 2 wb_p wb_p = 0.
Proof. unfold distance. rewrite total2. replace (_ + _) with 0 by ring. apply sqrt_0. Qed.
Lemma wb_loop : bt_loop 2 wb_arr (bt_start 2) = Ok (vec 2 wb_p).
Proof.
  rewrite (bt_start_eq 2) by lia. assert (S1 : bt_step wb_arr (vec 2 (fun _ => / INR 2)) = vec 2 wb_p).
  { apply wb_step; [intros i _; cbn; lra|cbn; lra|left; cbn; lra]. }
  assert (S2 : bt_step wb_arr (vec 2 wb_p) = vec 2 wb_p).
  { apply wb_step; [apply wb_prob|unfold wb_p; lra|right; reflexivity]. }
  cbn [bt_loop]. rewrite S1, S2. cbn [n0 wb_arr]. rewrite !sp_norm_diff. cbn [bind]. rewrite zero_norm.
  destruct (ngtb (Fin (distance 2 wb_p (fun _ => / INR 2))) pc_thr); [|reflexivity].
  unfold ngtb. rewrite pc_thr_ef. efc. cbn [ef_ltb]. destruct (Rltb (1 / 100000000) 0) eqn:B; [apply Rltb_true in B; lra|reflexivity].
Qed.
Definition same (x : arr2 ef) : res (arr2 ef) := Ok x.
Lemma wb_resolve : exists r, bt_resolve same 2 wb_arr = Ok r /\ bt_p r = vec 2 wb_p.
Proof. unfold bt_resolve. cbn [n0 n1 wb_arr Nat.eqb assert_ bind]. rewrite wb_loop. cbn [bind same]. eexists. split; reflexivity. Qed.
Lemma wb_expected : forall i, (i < 2)%nat -> wins 2 wb i = expected 2 wb wb_p i.
Proof. intros i Hi. unfold wins, expected, games, beats. rewrite !total2. two; unfold wb, wb_p; field. Qed.

(** The same comparison with the videos exchanged. *)
Definition swap (i : nat) : nat := match i with O => 1%nat | 1%nat => O | _ => i end.
Definition wb_arr' : arr2 ef := Arr2 2 2 (fun i j => Fin (wb (swap i) (swap j))).
Lemma swap_permutes : permutes 2 swap.
Proof.
  unfold permutes. repeat split; intros; two; cbn in *; try lia.
Qed.
Lemma wb_relabelled : relabelled_counts swap wb_arr wb_arr'. Proof. repeat split. Qed.
Lemma same_equivariant : forall m s, equivariant m s same.
Proof. intros m s x y _ _ H. exact H. Qed.

(** The votes behind the counts. *)
Definition wb_votes : arr3 ef := Arr3 2 2 3 (fun i j r =>
  match i, j, r with
  | O, 1%nat, O | O, 1%nat, 1%nat => Fin 1 | O, 1%nat, _ => Fin 0
  | 1%nat, O, O | 1%nat, O, 1%nat => Fin 0 | 1%nat, O, _ => Fin 1
  | _, _, _ => NaN end).

(** A pseudo-inverse oracle with which Newton's method takes one step to the
    maximum and stops. *)
Definition jump (x : arr2 ef) : res (arr2 ef) := Ok (Arr2 1 1 (fun _ _ => Fin (- 2 * ln 2))).
Definition wb_g (i : nat) : R := match i with O => ln 2 | _ => 0 end.
Lemma jump_change : forall g, nr_change jump wb_arr (vec 2 g) = Ok (vec 2 (fun i => match i with O => - 2 * ln 2 * ngrad 2 wb g 0 | _ => 0 end)).
Proof.
  intro g. unfold nr_change, jump. cbn [n0 wb_arr bind Nat.sub seq map app at2]. rewrite (dL_Fin wb_arr 2 wb g wb_counts wb_nonneg) by lia.
  rewrite np_sum_cons, np_sum_nil. unfold vec. cbn [seq map]. unfold nzero. efc. cbn [ef_mul ef_add]. rewrite Rplus_0_r. reflexivity.
Qed.
Lemma jump_resolve : nr_resolve jump 2 false wb_arr = Ok (vec 2 wb_g).
Proof.
  assert (G0 : ngrad 2 wb (fun _ => 0) 0 = 1 / 2).
  { unfold ngrad, wins, expected, games, beats, pexp. rewrite !total2. rewrite exp_0. unfold wb. field. }
  assert (G1 : ngrad 2 wb wb_g 0 = 0).
  { unfold ngrad, wins, expected, games, beats, pexp. rewrite !total2. unfold wb_g. rewrite exp_0, exp_ln by lra. unfold wb. field. }
  assert (L : nr_loop jump 2 wb_arr (vec 2 (fun _ => 0)) = Ok (vec 2 wb_g)).
  { cbn [nr_loop]. rewrite jump_change, G0. cbn [bind n0 wb_arr].
    assert (V : map (fun i => nsub (vat (vec 2 (fun _ => 0)) i) (vat (vec 2 (fun i => match i with O => - 2 * ln 2 * (1 / 2) | _ => 0 end)) i)) (seq 0 2) = vec 2 wb_g).
    { unfold vec at 3. apply map_ext_in. intros i Hi. apply in_seq0 in Hi. rewrite !vat_vec by exact Hi. efc. rewrite ef_sub_Fin. f_equal. two; unfold wb_g; field. }
    rewrite V, jump_change, G1. cbn [bind].
    assert (V' : map (fun i => nsub (vat (vec 2 wb_g) i) (vat (vec 2 (fun i => match i with O => - 2 * ln 2 * 0 | _ => 0 end)) i)) (seq 0 2) = vec 2 wb_g).
    { unfold vec at 3. apply map_ext_in. intros i Hi. apply in_seq0 in Hi. rewrite !vat_vec by exact Hi. efc. rewrite ef_sub_Fin. f_equal. two; unfold wb_g; field. }
    rewrite V'. unfold vec at 1 2. rewrite !sp_norm_Fin. cbn [bind].
    destruct (ngtb _ pc_thr); [|reflexivity]. unfold ngtb. rewrite pc_thr_ef. efc. cbn [ef_ltb]. rewrite total2.
    replace (_ + _) with 0 by ring. rewrite sqrt_0. destruct (Rltb (1 / 100000000) 0) eqn:B; [apply Rltb_true in B; lra|reflexivity]. }
  unfold nr_resolve. cbn [n0 n1 wb_arr Nat.eqb assert_ bind]. change (map (fun _ : nat => nzero) (seq 0 2)) with (vec 2 (fun _ => 0)).
  rewrite L. cbn [bind]. reflexivity.
Qed.

(** The normal distribution function as an oracle. *)
Definition ncdf (x : ef) : ef := match x with Fin r => Fin (normal r) | PInf => Fin 1 | NInf => Fin 0 | NaN => NaN end.
Lemma ncdf_computes : computes ncdf normal. Proof. intro x. reflexivity. Qed.

(** Equal counts for the refutation of the Thurstone second derivatives. *)
Definition wt (i j : nat) : R := match i, j with O, 1%nat => 1 | 1%nat, O => 1 | _, _ => 0 end.
Definition wt_arr : arr2 ef := Arr2 2 2 (fun i j => Fin (wt i j)).
Lemma c52_refuted : forall F cdf, normal_cdf F -> computes cdf F -> exists a m w v i k, counts a m w /\ nonneg_counts m w /\ each_won m w /\ no_self m w /\
  (i < m)%nat /\ (k < m)%nat /\ forall b, exists x, th_lbda cdf b a (vec m v) i k = Fin x /\
    ~ second_partial (fun _ => True) (th_likelihood F m w) i k v x.
Proof.
  intros F cdf HF HC. destruct (uneven F HF) as [z Hz].
  exists wt_arr, 2%nat, wt, (fun i => match i with O => z | _ => 0 end), 0%nat, 1%nat.
  assert (C : counts wt_arr 2 wt) by (repeat split). split; [exact C|].
  split; [intros i j Hi Hj; two; unfold wt; lra|]. split; [intros i Hi; unfold wins; rewrite total2; two; unfold wt; lra|].
  split; [intros i Hi; two; reflexivity|]. split; [lia|]. split; [lia|]. intro b.
  destruct (th_entry F cdf HF HC b wt_arr 2 wt (fun i => match i with O => z | _ => 0 end) 0 1 C ltac:(lia) ltac:(lia) ltac:(lia)) as (x & E & I).
  exists x. split; [exact E|]. intro S. apply I in S. destruct S as [S|S]; [unfold wt in S; lra|]. apply Hz. cbv beta iota in S.
  replace (z - 0) with z in S by ring. replace (0 - z) with (- z) in S by ring. exact S.
Qed.
Lemma c50_refuted : exists a m w p i k x, counts a m w /\ nonneg_counts m w /\ each_won m w /\ no_self m w /\
  bt_loop 2 a (bt_start m) = Ok (vec m p) /\ (i < m)%nat /\ (k < m)%nat /\ bt_lbda a (vec m p) i k = Fin x /\
  ~ second_partial (positive m) (bt_likelihood m w) i k p x.
Proof.
  destruct (bt_hessian wb_arr 2 wb wb_p 0 1 wb_counts wb_self (proj1 wb_prob) ltac:(lia) ltac:(lia)) as (x & E & I).
  exists wb_arr, 2%nat, wb, wb_p, 0%nat, 1%nat, x. split; [exact wb_counts|]. split; [exact wb_nonneg|]. split; [exact wb_won|]. split; [exact wb_self|].
  split; [exact wb_loop|]. split; [lia|]. split; [lia|]. split; [exact E|]. intro S. apply I in S.
  destruct S as [S|[S|S]]; [discriminate|unfold games, wb in S; lra|unfold wb_p in S; lra].
Qed.

Lemma wb_votes_counts : forall i j, (i < 2)%nat -> (j < 2)%nat -> preferences wb_votes i j = wb i j.
Proof. intros i j Hi Hj. unfold preferences. two; unfold wb_votes, wb, Rsum; cbn; try ring. Qed.
Lemma wb_votes_run : finite_votes wb_votes /\ nonneg_counts 2 (preferences wb_votes) /\ each_won 2 (preferences wb_votes) /\
  exists r, bt_run same 2 wb_votes = Ok r.
Proof.
  assert (F : finite_votes wb_votes).
  { intros e s r (He & Hs & Hr). cbn [dE dS dR wb_votes] in *. two; destruct r as [|[|[|]]]; try lia; cbn; exact I. }
  assert (C := win_counts wb_votes 2 eq_refl eq_refl F).
  split; [exact F|]. split; [intros i j Hi Hj; rewrite wb_votes_counts by assumption; apply wb_nonneg; assumption|].
  split; [intros i Hi; unfold wins; rewrite (total_ext 2 _ (wb i)) by (intros; apply wb_votes_counts; assumption); apply wb_won; assumption|].
  assert (L : bt_loop 2 (win_matrix wb_votes) (bt_start 2) = bt_loop 2 wb_arr (bt_start 2)).
  { assert (Q : forall i j, (i < 2)%nat -> (j < 2)%nat -> at2 (win_matrix wb_votes) i j = at2 wb_arr i j).
    { intros i j Hi Hj. destruct C as (_ & _ & C). rewrite C by assumption. rewrite wb_votes_counts by assumption. reflexivity. }
    assert (T : forall p, bt_step (win_matrix wb_votes) p = bt_step wb_arr p).
    { intro p. unfold bt_step, bt_raw, played, row. cbn [n0 n1 win_matrix wb_arr wb_votes dE dS]. cbn [seq map]. f_equal. rewrite !Q by lia. reflexivity. }
    cbn [bt_loop n0 win_matrix wb_arr wb_votes dE]. rewrite !T. reflexivity. }
  unfold bt_run, bt_resolve. cbn [n0 n1 win_matrix wb_votes dE dS Nat.eqb assert_ bind].
  match goal with |- context [bt_loop 2 ?x _] => change x with (win_matrix wb_votes) end.
  rewrite L, wb_loop. cbn [bind same]. eexists. reflexivity.
Qed.
