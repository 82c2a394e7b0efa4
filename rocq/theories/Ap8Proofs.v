(** Theorems about the projection solver: weighted means and subjects without votes. *)
From Coq Require Import String.
From Coq Require Import List ZArith Bool Arith Reals Lra Lia Permutation.
From Verif Require Import PyBase Num ExtReal NumPy Dataset Preproc Mos AP SpecMos SpecAp
  BaseProofs ExtRealProofs ArrayProofs MosProofs StepsProofs ApProofs Ap2Proofs Ap3Proofs Ap4Proofs Ap5Proofs Ap6Proofs Ap7Proofs.
Import ListNotations.
Local Open Scope list_scope.
Local Open Scope R_scope.

Lemma vsum_le : forall x e f g, (e < dE x)%nat -> (forall i r v, inside x e i r -> at3 x e i r = Fin v -> f i v <= g i v) -> vsum x e f <= vsum x e g.
Proof.
  intros x e f g He H. unfold vsum. apply Rsum_le. intros i Hi. apply in_seq in Hi. apply Rsum_le. intros r Hr. apply in_seq in Hr.
  destruct (at3 x e i r) eqn:E; cbn [vote_term]; try lra. apply (H i r r0); [repeat split; lia|exact E].
Qed.

Lemma weighted_hull : forall x p e lo hi, rated x e -> (e < dE x)%nat ->
  (forall i r v, inside x e i r -> at3 x e i r = Fin v -> lo <= v - eb_ p i <= hi) -> lo <= debiased_mean x p e <= hi.
Proof.
  intros x p e lo hi HR He H. unfold debiased_mean.
  assert (P : 0 < vsum x e (fun i _ => weight x p i)) by (apply rated_pos; [exact HR|intros; apply weight_pos]).
  assert (L : lo * vsum x e (fun i _ => weight x p i) <= vsum x e (fun i v => weight x p i * (v - eb_ p i))).
  { rewrite <- (vsum_mul x e lo (fun i _ => weight x p i)). apply vsum_le; [exact He|]. intros i r v HI E. destruct (H i r v HI E) as [H1 _].
    assert (W := weight_pos x p i). rewrite (Rmult_comm lo). apply Rmult_le_compat_l; lra. }
  assert (U : vsum x e (fun i v => weight x p i * (v - eb_ p i)) <= hi * vsum x e (fun i _ => weight x p i)).
  { rewrite <- (vsum_mul x e hi (fun i _ => weight x p i)). apply vsum_le; [exact He|]. intros i r v HI E. destruct (H i r v HI E) as [_ H2].
    assert (W := weight_pos x p i). rewrite (Rmult_comm hi). apply Rmult_le_compat_l; lra. }
  split.
  - apply (Rmult_le_reg_r (vsum x e (fun i _ => weight x p i))); [exact P|]. unfold Rdiv. rewrite Rmult_assoc, Rinv_l, Rmult_1_r by lra. exact L.
  - apply (Rmult_le_reg_r (vsum x e (fun i _ => weight x p i))); [exact P|]. unfold Rdiv. rewrite Rmult_assoc, Rinv_l, Rmult_1_r by lra. exact U.
Qed.

Lemma reachable_iterate : forall x s b, finite_votes x -> all_rated x -> reachable x s b ->
  exists n, s = qlist x (iterate x n) /\ b = blist x (iterate x n).
Proof.
  intros x s b HF HR H. induction H as [|s b e H (n & -> & ->) E].
  - exists 0%nat. cbn [iterate]. rewrite start_q by assumption. rewrite start_b by assumption. auto.
  - rewrite pass_spec in E by (try assumption; apply iterate_consistent). apply StepsProofs.Ok_inj in E. subst e. exists (S n). auto.
Qed.

Lemma c45 : forall x s b e' e, finite_votes x -> all_rated x -> reachable x s b -> ap_pass x s b = Ok e' -> (e < dE x)%nat ->
  exists q, nth_error (es e') e = Some (Fin q) /\
  forall lo hi, (forall i r v bi, inside x e i r -> at3 x e i r = Fin v -> nth_error b i = Some (Fin bi) -> lo <= v - bi <= hi) -> lo <= q <= hi.
Proof.
  intros x s b e' e HF HR Hreach E He. destruct (reachable_iterate x s b HF HR Hreach) as (n & -> & ->).
  rewrite pass_spec in E by (try assumption; apply iterate_consistent). apply StepsProofs.Ok_inj in E. subst e'. cbn [es].
  exists (eq_ (next x (iterate x n)) e). split.
  - unfold qlist. rewrite nth_error_map, nth_error_nth' with (d := 0%nat) by (rewrite seq_length; exact He). rewrite seq_nth by exact He. reflexivity.
  - intros lo hi H. cbn [next eq_]. apply weighted_hull; [apply HR; exact He|exact He|]. intros i r v HI Ev. apply (H i r v _ HI Ev).
    assert (V := inside_voted x e i r v HI Ev). destruct HI as (_ & Hi & _).
    unfold blist. rewrite nth_error_map, nth_error_nth' with (d := 0%nat) by (rewrite seq_length; exact Hi). rewrite seq_nth by exact Hi. cbn [option_map Nat.add].
    f_equal. apply nan_if0_ne. apply voted_count in V. lra.
Qed.

(** ** Subjects without votes *)
Section Idle.
  Context (x y : arr3 ef).
  Hypothesis HI : idle_subjects x y.
  Lemma id_vsum : forall e f, (e < dE x)%nat -> vsum y e f = vsum x e f.
  Proof.
    intros e f He. destruct HI as (HE & HS & HR & H1 & H2). unfold vsum. rewrite HR.
    replace (dS y) with (dS x + (dS y - dS x))%nat by lia. rewrite seq_app, map_app, Rsum_app.
    replace (Rsum (map _ (seq (0 + dS x) (dS y - dS x)))) with 0.
    - rewrite Rplus_0_r. apply Rsum_map_ext. intros i Hi. apply in_seq in Hi. apply Rsum_map_ext. intros r Hr. apply in_seq in Hr.
      rewrite H1 by (repeat split; lia). reflexivity.
    - symmetry. rewrite <- (Rsum_zeros nat (seq (0 + dS x) (dS y - dS x))). apply Rsum_map_ext. intros i Hi. apply in_seq in Hi.
      rewrite <- (Rsum_zeros nat (seq 0 (dR x))). apply Rsum_map_ext. intros r Hr. apply in_seq in Hr.
      rewrite H2; [reflexivity|repeat split; lia|lia].
  Qed.
  Lemma id_ssum : forall i f, (i < dS x)%nat -> ssum y i f = ssum x i f.
  Proof.
    intros i f Hi. destruct HI as (HE & HS & HR & H1 & H2). unfold ssum. rewrite HR, HE.
    apply Rsum_map_ext. intros e He. apply in_seq in He. apply Rsum_map_ext. intros r Hr. apply in_seq in Hr.
    rewrite H1 by (repeat split; lia). reflexivity.
  Qed.
  Lemma id_scount : forall i, (i < dS x)%nat -> scount y i = scount x i.
  Proof. intros. apply id_ssum. assumption. Qed.
  Lemma id_vcount : forall e, (e < dE x)%nat -> vcount y e = vcount x e.
  Proof. intros. apply id_vsum. assumption. Qed.
  Lemma id_scount0 : forall i, (dS x <= i < dS y)%nat -> scount y i = 0.
  Proof.
    intros i Hi. destruct HI as (HE & HS & HR & H1 & H2). unfold scount, ssum.
    rewrite <- (Rsum_zeros nat (seq 0 (dE y))). apply Rsum_map_ext. intros e He. apply in_seq in He.
    rewrite <- (Rsum_zeros nat (seq 0 (dR y))). apply Rsum_map_ext. intros r Hr. apply in_seq in Hr. rewrite H2; [reflexivity|repeat split; lia|lia].
  Qed.
  Lemma id_finite : finite_votes x -> finite_votes y.
  Proof.
    intros HF e i r (He & Hi & Hr). destruct HI as (HE & HS & HR & H1 & H2). destruct (Nat.lt_ge_cases i (dS x)) as [L|L].
    - rewrite H1 by (repeat split; lia). apply HF. repeat split; lia.
    - rewrite H2; [exact I|repeat split; lia|exact L].
  Qed.
  Lemma id_rated : all_rated x -> all_rated y.
  Proof.
    intros H e He. destruct HI as (HE & _). apply vcount_rated; [exact He|]. rewrite id_vcount by lia. assert (G := rated_count x e (H e ltac:(lia))). lra.
  Qed.
  Lemma id_in : forall e i r v, (e < dE x)%nat -> (i < dS x)%nat -> (r < dR x)%nat -> at3 x e i r = Fin v -> voted x i.
  Proof. intros e i r v He Hi Hr E. exists e, r, v. split; [repeat split; assumption|exact E]. Qed.

  Definition same_est (p p' : est) : Prop := (forall e, (e < dE x)%nat -> eq_ p' e = eq_ p e) /\ (forall i, (i < dS x)%nat -> eb_ p' i = eb_ p i).
  Lemma id_diff : forall q q' i, (forall e, (e < dE x)%nat -> q' e = q e) -> (i < dS x)%nat -> mean_diff y q' i = mean_diff x q i.
  Proof.
    intros q q' i H Hi. unfold mean_diff. rewrite id_scount, id_ssum by exact Hi. f_equal. apply ssum_ext. intros e r v He _ _. rewrite H by exact He. reflexivity.
  Qed.
  Lemma id_rms : forall p p' i, same_est p p' -> (i < dS x)%nat -> rms y p' i = rms x p i.
  Proof.
    intros p p' i (Q & B) Hi. unfold rms. rewrite id_scount, id_ssum by exact Hi. f_equal. f_equal. apply ssum_ext. intros e r v He _ _.
    rewrite Q by exact He. rewrite B by exact Hi. reflexivity.
  Qed.
  Lemma id_start : same_est (start x) (start y).
  Proof.
    assert (Q : forall e, (e < dE x)%nat -> mean_vote y e = mean_vote x e) by (intros; unfold mean_vote; rewrite id_vcount, id_vsum by assumption; reflexivity).
    split; [exact Q|]. intros i Hi. apply id_diff; assumption.
  Qed.
  Lemma id_next : forall p p', same_est p p' -> same_est (next x p) (next y p').
  Proof.
    intros p p' M.
    assert (Q : forall e, (e < dE x)%nat -> debiased_mean y p' e = debiased_mean x p e).
    { intros e He. unfold debiased_mean. rewrite !id_vsum by exact He. f_equal.
      - apply vsum_ext. intros i r v Hi _ _. unfold weight. rewrite (id_rms p p' i M Hi). destruct M as (_ & B). rewrite B by exact Hi. reflexivity.
      - apply vsum_ext. intros i r v Hi _ _. unfold weight. rewrite (id_rms p p' i M Hi). reflexivity. }
    split; [exact Q|]. intros i Hi. apply id_diff; assumption.
  Qed.
  Lemma id_iterate : forall n, same_est (iterate x n) (iterate y n).
  Proof. induction n; cbn [iterate]; [apply id_start|apply id_next; assumption]. Qed.
  Lemma id_stops : forall n, stops x n -> stops y n.
  Proof.
    assert (C : forall n, change y n = change x n).
    { intro n. unfold change. destruct HI as (HE & _). rewrite HE. f_equal. apply Rsum_map_ext. intros e He. apply in_seq in He.
      destruct (id_iterate n) as (Q & _). destruct (id_iterate (S n)) as (Q' & _). rewrite Q, Q' by lia. reflexivity. }
    intros n (H1 & H2 & H3). split; [exact H1|]. split; [rewrite C; exact H2|]. intros m Hm. rewrite C. apply H3. exact Hm.
  Qed.
End Idle.

Section C46.
  Context (chi : ef -> ef -> ef).
  Lemma c46 : forall c (rd rd' : reader ef) a a' m m', rd_arr rd = Ok a -> rd_arr rd' = Ok a' -> finite_votes a -> idle_subjects a a' ->
    ap_run_modeling chi c rd no_options (Some false) = Ok m -> ap_run_modeling chi c rd' no_options (Some false) = Ok m' ->
    ap_quality m' = ap_quality m /\ ap_quality_std m' = ap_quality_std m /\ ap_quality_lo m' = ap_quality_lo m /\ ap_quality_hi m' = ap_quality_hi m /\
    ap_bias m' = ap_bias m ++ repeat NaN (dS a' - dS a) /\ ap_incons m' = ap_incons m ++ repeat NaN (dS a' - dS a) /\
    ap_iter m' = ap_iter m.
  Proof.
    intros c rd rd' a a' m m' Ha Ha' HF HI Hm Hm'.
    assert (HR := run_rated chi c rd _ a m Ha HF Hm). assert (HF' := id_finite a a' HI HF).
    destruct (run_solved chi c rd (Some false) a m Ha HF (or_intror eq_refl) Hm) as (n & Hn & S).
    destruct (run_solved chi c rd' (Some false) a' m' Ha' HF' (or_intror eq_refl) Hm') as (n' & Hn' & S').
    rewrite (stops_unique a' n' n Hn' (id_stops a a' HI n Hn)) in S'. cbn beta iota in S, S'.
    assert (M := id_iterate a a' HI n). assert (M1 := id_iterate a a' HI (n - 1)).
    assert (HE : dE a' = dE a) by apply HI. assert (HS : (dS a <= dS a')%nat) by apply HI.
    assert (QS : ap_quality_std m' = ap_quality_std m).
    { rewrite (sv_quality_std _ _ _ _ _ _ S), (sv_quality_std _ _ _ _ _ _ S'), HE. apply map_ext_in. intros e He. apply in_seq in He. f_equal.
      destruct (is_alt c).
      - rewrite (id_vcount a a' HI) by lia. f_equal. unfold video_spread, mean_residual. rewrite !(id_vcount a a' HI), !(id_vsum a a' HI) by lia.
        f_equal. f_equal. destruct M1 as (Q & B).
        rewrite (vsum_ext a e (fun i v => v - eq_ (iterate a' (n - 1)) e - eb_ (iterate a' (n - 1)) i) (fun i v => v - eq_ (iterate a (n - 1)) e - eb_ (iterate a (n - 1)) i)).
        + apply vsum_ext. intros i r v Hi _ _. rewrite Q by lia. rewrite B by exact Hi. reflexivity.
        + intros i r v Hi _ _. rewrite Q by lia. rewrite B by exact Hi. reflexivity.
      - unfold quality_se. rewrite !(id_vsum a a' HI) by lia.
        rewrite (vsum_ext a e (fun i _ => if Req_EM_T (rms a' (iterate a' (n - 1)) i) 0 then 1 else 0) (fun i _ => if Req_EM_T (rms a (iterate a (n - 1)) i) 0 then 1 else 0)).
        + rewrite (vsum_ext a e (fun i _ => 1 / (rms a' (iterate a' (n - 1)) i * rms a' (iterate a' (n - 1)) i)) (fun i _ => 1 / (rms a (iterate a (n - 1)) i * rms a (iterate a (n - 1)) i))).
          * reflexivity.
          * intros i r v Hi _ _. rewrite (id_rms a a' HI _ _ i M1 Hi). reflexivity.
        + intros i r v Hi _ _. rewrite (id_rms a a' HI _ _ i M1 Hi). reflexivity. }
    assert (Split : forall g : nat -> ef, (forall i, (dS a <= i < dS a')%nat -> g i = NaN) -> map g (seq 0 (dS a')) = map g (seq 0 (dS a)) ++ repeat NaN (dS a' - dS a)).
    { intros g Hg. replace (dS a') with (dS a + (dS a' - dS a))%nat at 1 by lia. rewrite seq_app, map_app. f_equal.
      rewrite map_NaN; [rewrite seq_length; reflexivity|]. intros i Hi. apply in_seq in Hi. apply Hg. lia. }
    split; [|split; [exact QS|]].
    { rewrite (sv_quality _ _ _ _ _ _ S), (sv_quality _ _ _ _ _ _ S'), HE. apply map_ext_in. intros e He. apply in_seq in He. f_equal. cbn [reported]. apply M. lia. }
    split; [rewrite (proj1 (sv_quality_ci _ _ _ _ _ _ S)), (proj1 (sv_quality_ci _ _ _ _ _ _ S')), QS; reflexivity|].
    split; [rewrite (proj2 (sv_quality_ci _ _ _ _ _ _ S)), (proj2 (sv_quality_ci _ _ _ _ _ _ S')), QS; reflexivity|].
    split; [|split].
    - rewrite (sv_bias _ _ _ _ _ _ S), (sv_bias _ _ _ _ _ _ S'). rewrite Split.
      + f_equal. apply map_ext_in. intros i Hi. apply in_seq in Hi. unfold if_voted. rewrite (id_scount a a' HI) by lia. cbn [reported].
        destruct (Req_EM_T _ _); [reflexivity|]. f_equal. apply M. lia.
      + intros i Hi. unfold if_voted. rewrite (id_scount0 a a' HI) by lia. destruct (Req_EM_T 0 0); [reflexivity|contradiction].
    - rewrite (sv_incons _ _ _ _ _ _ S), (sv_incons _ _ _ _ _ _ S'). rewrite Split.
      + f_equal. apply map_ext_in. intros i Hi. apply in_seq in Hi. unfold if_voted. rewrite (id_scount a a' HI) by lia.
        destruct (Req_EM_T _ _); [reflexivity|]. f_equal. apply (id_rms a a' HI); [exact M1|lia].
      + intros i Hi. unfold if_voted. rewrite (id_scount0 a a' HI) by lia. destruct (Req_EM_T 0 0); [reflexivity|contradiction].
    - rewrite (sv_iter _ _ _ _ _ _ S), (sv_iter _ _ _ _ _ _ S'). reflexivity.
  Qed.
  (** With the zero-mean option one such subject destroys every score. *)
  Lemma c46_default : forall c (rd' : reader ef) f a a' m', rd_arr rd' = Ok a' -> finite_votes a -> idle_subjects a a' -> (dS a < dS a')%nat -> f <> Some false ->
    ap_run_modeling chi c rd' no_options f = Ok m' -> ap_quality m' = repeat NaN (dE a') /\ ap_bias m' = repeat NaN (dS a').
  Proof.
    intros c rd' f a a' m' Ha' HF HI L Hf Hm'.
    destruct (run_poisoned chi c rd' f a' m' Ha' (id_finite a a' HI HF)) as (m0 & _ & P); [|exact Hf|exact Hm'|split; [apply P|apply P]].
    intro V. assert (G := voted_count a' (dS a) (V (dS a) L)). rewrite (id_scount0 a a' HI) in G by lia. lra.
  Qed.
End C46.
