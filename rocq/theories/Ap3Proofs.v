(** The projection solver as a whole. *)
From Coq Require Import String.
From Coq Require Import List ZArith Bool Arith Reals Lra Lia Permutation.
From Verif Require Import PyBase Num ExtReal NumPy Dataset Preproc Mos AP SpecMos SpecAp
  BaseProofs ExtRealProofs ArrayProofs MosProofs StepsProofs ApProofs Ap2Proofs.
Import ListNotations.
Local Open Scope list_scope.
Local Open Scope R_scope.

Section Solve.
  Context (chi : ef -> ef -> ef).

Lemma nan_if0_voted : forall x i v, nan_if0 (scount x i) v = if_voted x i (Fin v).
Proof.
  intros. unfold nan_if0, if_voted, Reqbb. destruct (Req_EM_T (scount x i) 0); reflexivity.
Qed.
Lemma cnt_cols : forall x, finite_votes x ->
  map (fun s => np_cnt (col (stack0 x) s)) (seq 0 (n1 (stack0 x))) = map (fun i => length (subject_votes x i)) (seq 0 (dS x)).
Proof.
  intros x H. change (n1 (stack0 x)) with (dS x). apply map_ext_in. intros e He. apply in_seq in He.
  rewrite np_cnt_finnan by (apply col_finnan; [exact H|lia]). apply Permutation_length, presents_col.
Qed.
Lemma all_rated_dS : forall x, all_rated x -> (0 < dE x)%nat -> (0 < dS x)%nat.
Proof. intros x H Hd. destruct (H 0%nat Hd) as (i & r & v & (_ & Hi & _) & _). lia. Qed.

Lemma zero_mean_reported : forall force x p, all_rated x -> (force = true -> all_voted x) ->
  zero_mean force (qlist x p) (blist x p) = (qlist x (reported force x p), blist x (reported force x p)).
Proof.
  intros force x p HR HV. destruct force; [|reflexivity]. specialize (HV eq_refl).
  destruct (dS x) as [|k] eqn:E.
  - assert (E' : dE x = 0%nat). { destruct (dE x) eqn:E'; [reflexivity|]. assert (H := all_rated_dS x HR ltac:(lia)). lia. }
    unfold zero_mean, qlist, blist. rewrite E, E'. reflexivity.
  - apply zero_mean_voted; [exact HV|lia].
Qed.

Lemma solve_spec : forall alt force x, finite_votes x -> all_rated x -> (force = true -> all_voted x) ->
  exists n m, stops x n /\ ap_solve chi alt force x x = Ok m /\ solved chi alt force x n m /\ ap_observers m = None.
Proof.
  intros alt force x HF HR HV. destruct (solver_loop x HF HR) as (n & Hn & HL).
  exists n. unfold ap_solve. rewrite HL. cbn [bind es eb ev evj]. rewrite (zero_mean_reported force x _ HR HV).
  eexists. split; [exact Hn|]. split; [reflexivity|]. split; [|reflexivity].
  rewrite (cnt_cols x HF).
  set (p := iterate x (n - 1)). set (p' := iterate x n). set (o := reported force x p').
  assert (Ell : all_spread x p -> ap_loglik x (qlist x o) (blist x o) (vlist x p) = Fin (total_ll x p p')).
  { intro HS. rewrite loglik_spec by assumption. f_equal. unfold o, reported. destruct force; [apply total_ll_shifted|reflexivity]. }
  assert (Ecnt := cnt_flat3 x HF).
  constructor; cbn [ap_raw ap_iter ap_quality ap_quality_std ap_quality_lo ap_quality_hi ap_bias ap_bias_std ap_bias_lo ap_bias_hi
     ap_incons ap_incons_std ap_incons_lo ap_incons_hi ap_scores_mean ap_scores_std ap_recon ap_dof ap_ll ap_aic ap_bic]; fold p p' o.
  - reflexivity.
  - reflexivity.
  - reflexivity.
  - destruct alt; [apply quality_std_alt_spec|apply quality_std_spec]; assumption.
  - rewrite z95_ef. split; reflexivity.
  - unfold blist. apply map_ext. intro i. apply nan_if0_voted.
  - apply bias_std_spec. exact HF.
  - rewrite z95_ef. split; reflexivity.
  - unfold vlist. apply map_ext. intro i. apply nan_if0_voted.
  - apply incons_std_spec. exact HF.
  - unfold vlist. rewrite combine_map_map, map_map. apply map_ext_in. intros i Hi. apply in_seq in Hi. cbn [fst snd].
    rewrite nofnat_ef, subject_count. unfold none_. rewrite ndec_ef by lia. efc. rewrite ef_sub_Fin.
    replace (1 - IZR 25 / IZR 1000) with (975 / 1000) by lra. f_equal.
    rewrite (nth_indep _ NaN (nan_if0 (scount x 0) (rms x p 0))) by (rewrite map_length, seq_length; lia).
    rewrite (map_nth (fun i => nan_if0 (scount x i) (rms x p i))). rewrite seq_nth by lia. reflexivity.
  - unfold vlist. rewrite combine_map_map, map_map. apply map_ext_in. intros i Hi. apply in_seq in Hi. cbn [fst snd].
    rewrite nofnat_ef, subject_count. unfold none_. rewrite ndec_ef by lia. efc. f_equal.
    rewrite (nth_indep _ NaN (nan_if0 (scount x 0) (rms x p 0))) by (rewrite map_length, seq_length; lia).
    rewrite (map_nth (fun i => nan_if0 (scount x i) (rms x p i))). rewrite seq_nth by lia. reflexivity.
  - rewrite mean_cols_sum by exact HF. apply map_ext. intro i. rewrite nan_if0_voted, subject_mean. reflexivity.
  - rewrite std_cols_sum by exact HF. apply map_ext. intro i. rewrite nan_if0_voted, subject_mean. reflexivity.
  - cbn. auto.
  - intros e i r (He & Hi & Hr). cbn [ap_reconstructions at3]. rewrite qlist_at by exact He. unfold blist. rewrite vat_map_seq by exact Hi.
    rewrite nan_if0_voted. unfold if_voted. destruct (Req_EM_T (scount x i) 0); [reflexivity|]. efc. cbn [ef_add]. f_equal.
    unfold o, reported. destruct force; cbn [shifted eq_ eb_]; ring.
  - rewrite Ecnt, nofnat_ef. reflexivity.
  - intro HS. rewrite (Ell HS), Ecnt. reflexivity.
  - intro HS. rewrite loglik_nospread; [reflexivity|].
    destruct (existsb (fun i => negb (Reqbb (scount x i) 0) && Reqbb (rms x p i) 0) (seq 0 (dS x))) eqn:B.
    + apply existsb_exists in B as (i & Hi & B). apply in_seq in Hi. apply andb_prop in B as [B1 B2]. apply Reqbb_true in B2.
      exists i. split; [lia|]. split; [|exact B2]. apply scount_voted; [lia|]. intro G. rewrite (proj2 (Reqbb_true _ _) G) in B1. discriminate.
    + exfalso. apply HS. intros i Hi V Z.
      assert (B' : existsb (fun i => negb (Reqbb (scount x i) 0) && Reqbb (rms x p i) 0) (seq 0 (dS x)) = true).
      { apply existsb_exists. exists i. split; [apply in_seq; lia|]. rewrite (proj2 (Reqbb_true _ _) Z). rewrite andb_true_r.
        destruct (Reqbb (scount x i) 0) eqn:G; [|reflexivity]. apply Reqbb_true in G. apply voted_count in V. lra. }
      congruence.
  - reflexivity.
  - rewrite Ecnt. reflexivity.
Qed.

(** A video nobody rated. *)
Lemma Rsum_zeros : forall A (l : list A), Rsum (map (fun _ => 0) l) = 0.
Proof. induction l as [|a l IH]; [reflexivity|]. change (0 + Rsum (map (fun _ => 0) l) = 0). rewrite IH. ring. Qed.
Lemma vsum_unrated : forall x e f, (e < dE x)%nat -> ~ rated x e -> vsum x e f = 0.
Proof.
  intros x e f He HN. unfold vsum. transitivity (Rsum (map (fun _ : nat => 0) (seq 0 (dS x)))).
  - apply Rsum_map_ext. intros i Hi. apply in_seq in Hi. transitivity (Rsum (map (fun _ : nat => 0) (seq 0 (dR x)))).
    + apply Rsum_map_ext. intros r Hr. apply in_seq in Hr. destruct (at3 x e i r) eqn:E; try reflexivity.
      exfalso. apply HN. exists i, r, r0. split; [repeat split; lia|exact E].
    + apply Rsum_zeros.
  - apply Rsum_zeros.
Qed.
Lemma solve_unrated : forall alt force x x0, finite_votes x -> (exists e, (e < dE x)%nat /\ ~ rated x e) ->
  ap_solve chi alt force x x0 = Err ValueError.
Proof.
  intros alt force x x0 HF (e & He & HN). 
  assert (L : forall f itr, f <> 0%nat -> ap_loop f itr x (along1 np_nanmean (stack1 x)) (bias_of x (along1 np_nanmean (stack1 x))) = Err ValueError).
  2:{ unfold ap_solve. rewrite L by discriminate. reflexivity. }
  intros [|f] itr Hf; [contradiction|]. cbn [ap_loop]. unfold ap_pass. cbn [weighed_nanmean_2d bind es].
  set (s0 := along1 np_nanmean (stack1 x)). set (s1 := along1 _ (stack1 (minus_bias x _))).
  assert (E0 : vat s0 e = NaN).
  { unfold s0. rewrite mean_rows_sum by exact HF. rewrite vat_map_seq by exact He. unfold vcount. rewrite vsum_unrated by assumption. apply nan_if0_0. }
  assert (L0 : length s0 = dE x) by (unfold s0; apply along1_length).
  assert (L1 : length s1 = dE x) by (unfold s1; apply along1_length).
  replace (sp_norm _) with (@Err ef ValueError); [reflexivity|].
  unfold sp_norm. symmetry.
  match goal with |- (if existsb ?f ?l then _ else _) = _ => assert (G : existsb f l = true) end.
  { apply existsb_exists. exists NaN. split; [|reflexivity]. apply in_map_iff.
    exists (NaN, vat s1 e). split; [reflexivity|]. unfold vat in *.
    rewrite <- E0. apply nth_error_In with e. 
    assert (Q : forall A B (l : list A) (l' : list B) n a b, nth_error l n = Some a -> nth_error l' n = Some b -> nth_error (combine l l') n = Some (a, b)).
    { clear. induction l; intros l' n a' b H1 H2; destruct n; try discriminate; destruct l'; try discriminate; cbn in *; [congruence|apply IHl; assumption]. }
    apply Q; apply nth_error_nth'; lia. }
  rewrite G. reflexivity.
Qed.

Lemma np_sum_flat_nil : forall x F, dE x = 0%nat -> ll_terms x F = [].
Proof. intros x F H. unfold ll_terms. rewrite H. reflexivity. Qed.
Lemma vat_repeat : forall n i, vat (repeat (NaN : ef) n) i = NaN.
Proof. induction n; destruct i; cbn; auto. apply IHn. Qed.

Lemma solve_poisoned : forall alt x, finite_votes x -> all_rated x -> (exists i, (i < dS x)%nat /\ ~ voted x i) ->
  exists m0 m, ap_solve chi alt false x x = Ok m0 /\ ap_solve chi alt true x x = Ok m /\ poisoned x m0 m.
Proof.
  intros alt x HF HR HV. destruct (solver_loop x HF HR) as (n & Hn & HL).
  unfold ap_solve. rewrite HL. cbn [bind es eb ev evj]. rewrite zero_mean_unvoted by exact HV. cbn [zero_mean].
  eexists. eexists. split; [reflexivity|]. split; [reflexivity|].
  constructor; cbn [ap_raw ap_iter ap_quality ap_quality_std ap_quality_lo ap_quality_hi ap_bias ap_bias_std ap_bias_lo ap_bias_hi
     ap_incons ap_incons_std ap_incons_lo ap_incons_hi ap_scores_mean ap_scores_std ap_recon ap_dof ap_ll ap_aic ap_bic ap_observers].
  - reflexivity.
  - reflexivity.
  - cbn. auto.
  - intros e i r _. cbn [ap_reconstructions at3]. rewrite !vat_repeat. reflexivity.
  - intro Hd. rewrite loglik_nan_mean.
    + efc. cbn [ef_div ef_mul ef_sub ef_neg]. split; [reflexivity|].
      split; match goal with |- ef_sub ?a NaN = NaN => destruct a; reflexivity end.
    + destruct (HR 0%nat Hd) as (i & r & w & HI & E). exists 0%nat, i, r, w. split; assumption.
    + intros e i. left. apply vat_repeat.
  - intro Hd. unfold ap_loglik. rewrite !flat3_terms, !np_sum_flat_nil by exact Hd. auto.
  - repeat split; reflexivity.
Qed.

(** run_modeling without options. *)
Lemma ap_run_inv : forall c (rd : reader ef) f a, rd_arr rd = Ok a -> forall m,
  ap_run_modeling chi c rd no_options f = Ok m ->
  exists m1 obs, attach_observers rd = Ok obs /\ ap_solve chi (is_alt c) (match f with Some b => b | None => true end) a a = Ok m1 /\
    m = ApRes (ap_raw m1) (ap_quality m1) (ap_quality_std m1) (ap_quality_lo m1) (ap_quality_hi m1)
          (ap_bias m1) (ap_bias_std m1) (ap_bias_lo m1) (ap_bias_hi m1)
          (ap_incons m1) (ap_incons_std m1) (ap_incons_lo m1) (ap_incons_hi m1)
          (ap_scores_mean m1) (ap_scores_std m1) (ap_recon m1) (ap_iter m1)
          (ap_dof m1) (ap_ll m1) (ap_aic m1) (ap_bic m1) obs.
Proof.
  intros c rd f a Ha m H. unfold ap_run_modeling in H.
  assert (P : preprocess rd no_options = Ok (PP a a None None)).
  { unfold preprocess. rewrite Ha. reflexivity. }
  rewrite P in H. cbn [bind pp_arr pp_orig] in H.
  destruct (ap_solve chi (is_alt c) _ a a) as [m1|] eqn:E; [|discriminate]. cbn [bind] in H.
  destruct (attach_observers rd) as [obs|]; [|discriminate]. cbn [bind] in H. apply StepsProofs.Ok_inj in H. subst m.
  exists m1, obs. auto.
Qed.
End Solve.
