(** Theorems about the projection solver: recovery, hull, idle subjects, zero mean. *)
From Coq Require Import String.
From Coq Require Import List ZArith Bool Arith Reals Lra Lia Permutation.
From Verif Require Import PyBase Num ExtReal NumPy Dataset Preproc Mos AP SpecMos SpecAp
  BaseProofs ExtRealProofs ArrayProofs MosProofs StepsProofs ApProofs Ap2Proofs Ap3Proofs Ap4Proofs Ap5Proofs Ap6Proofs.
Import ListNotations.
Local Open Scope list_scope.
Local Open Scope R_scope.

Section S.
  Context (chi : ef -> ef -> ef).

  (** Success and failure of a run. *)
  Lemma run_unrated : forall c (rd : reader ef) f a, rd_arr rd = Ok a -> finite_votes a -> ~ all_rated a ->
    ap_run_modeling chi c rd no_options f = Err ValueError.
  Proof.
    intros c rd f a Ha HF HN. unfold ap_run_modeling.
    assert (P : preprocess rd no_options = Ok (PP a a None None)) by (unfold preprocess; rewrite Ha; reflexivity).
    rewrite P. cbn [bind pp_arr pp_orig]. rewrite solve_unrated; [reflexivity|exact HF|].
    destruct (rated_dec a) as [R|N]; [contradiction|exact N].
  Qed.
  Lemma run_rated : forall c (rd : reader ef) f a m, rd_arr rd = Ok a -> finite_votes a ->
    ap_run_modeling chi c rd no_options f = Ok m -> all_rated a.
  Proof.
    intros c rd f a m Ha HF H. destruct (rated_dec a) as [R|(e & He & N)]; [exact R|].
    rewrite (run_unrated c rd f a Ha HF) in H; [discriminate|]. intro R. apply N. apply R. exact He.
  Qed.
  Lemma run_ok : forall c (rd : reader ef) f a obs, rd_arr rd = Ok a -> finite_votes a -> all_rated a -> attach_observers rd = Ok obs ->
    exists m, ap_run_modeling chi c rd no_options f = Ok m.
  Proof.
    intros c rd f a obs Ha HF HR HO. unfold ap_run_modeling.
    assert (P : preprocess rd no_options = Ok (PP a a None None)) by (unfold preprocess; rewrite Ha; reflexivity).
    rewrite P. cbn [bind pp_arr pp_orig].
    set (fo := match f with Some b => b | None => true end).
    assert (E : exists m1, ap_solve chi (is_alt c) fo a a = Ok m1).
    { destruct fo; [destruct (voted_dec a) as [V|N]|].
      - destruct (solve_spec chi (is_alt c) true a HF HR (fun _ => V)) as (n & m & _ & E & _). eauto.
      - destruct (solve_poisoned chi (is_alt c) a HF HR N) as (m0 & m & _ & E & _). eauto.
      - destruct (solve_spec chi (is_alt c) false a HF HR ltac:(discriminate)) as (n & m & _ & E & _). eauto. }
    destruct E as (m1 & E). rewrite E. cbn [bind]. rewrite HO. cbn [bind]. eauto.
  Qed.
  Lemma run_solved : forall c (rd : reader ef) f a m, rd_arr rd = Ok a -> finite_votes a ->
    (all_voted a \/ f = Some false) -> ap_run_modeling chi c rd no_options f = Ok m ->
    exists n, stops a n /\ solved chi (is_alt c) (match f with Some b => b | None => true end) a n m.
  Proof.
    intros c rd f a m Ha HF HV H. assert (HR := run_rated c rd f a m Ha HF H).
    destruct (ap_run_inv chi c rd f a Ha m H) as (m1 & o & _ & E & ->).
    destruct (solve_spec chi (is_alt c) (match f with Some b => b | None => true end) a HF HR) as (n & m2 & Hn & E2 & S & _).
    { intro Q. destruct HV as [V| ->]; [exact V|discriminate]. }
    rewrite E2 in E. apply StepsProofs.Ok_inj in E. subst m2. exists n. split; [exact Hn|]. destruct S; constructor; assumption.
  Qed.
  Lemma run_poisoned : forall c (rd : reader ef) f a m, rd_arr rd = Ok a -> finite_votes a ->
    ~ all_voted a -> f <> Some false -> ap_run_modeling chi c rd no_options f = Ok m ->
    exists m0, ap_run_modeling chi c rd no_options (Some false) = Ok m0 /\ poisoned a m0 m.
  Proof.
    intros c rd f a m Ha HF HV Hf H. assert (HR := run_rated c rd f a m Ha HF H).
    destruct (voted_dec a) as [V|N]; [contradiction|].
    assert (P : preprocess rd no_options = Ok (PP a a None None)) by (unfold preprocess; rewrite Ha; reflexivity).
    destruct (ap_run_inv chi c rd f a Ha m H) as (m1 & o & Ho & E & ->).
    destruct (solve_poisoned chi (is_alt c) a HF HR N) as (m0 & m2 & E0 & E2 & Q).
    replace (match f with Some b => b | None => true end) with true in E by (destruct f as [[|]|]; [reflexivity|contradiction|reflexivity]).
    rewrite E2 in E. apply StepsProofs.Ok_inj in E. subst m2.
    exists (ApRes (ap_raw m0) (ap_quality m0) (ap_quality_std m0) (ap_quality_lo m0) (ap_quality_hi m0)
          (ap_bias m0) (ap_bias_std m0) (ap_bias_lo m0) (ap_bias_hi m0)
          (ap_incons m0) (ap_incons_std m0) (ap_incons_lo m0) (ap_incons_hi m0)
          (ap_scores_mean m0) (ap_scores_std m0) (ap_recon m0) (ap_iter m0)
          (ap_dof m0) (ap_ll m0) (ap_aic m0) (ap_bic m0) o).
    split.
    - unfold ap_run_modeling. rewrite P. cbn [bind pp_arr pp_orig]. rewrite E0. cbn [bind]. rewrite Ho. reflexivity.
    - destruct Q as [? ? ? ? ? ? R]. constructor; try assumption. cbn. cbn in R. intuition.
  Qed.

  (** *** Zero-mean biases *)
  Lemma solved_fun : forall alt f a n m m', solved chi alt f a n m -> solved chi alt f a n m' -> ap_ll m = ap_ll m'.
  Proof.
    intros alt f a n m m' S S'. assert (L : forall Q : Prop, Q \/ ~ Q -> (Q -> ap_ll m = ap_ll m') -> (~ Q -> ap_ll m = ap_ll m') -> ap_ll m = ap_ll m') by tauto.
    destruct (existsb (fun i => negb (Reqbb (scount a i) 0) && Reqbb (rms a (iterate a (n - 1)) i) 0) (seq 0 (dS a))) eqn:B.
    - assert (N : ~ all_spread a (iterate a (n - 1))).
      { apply existsb_exists in B as (i & Hi & B). apply in_seq in Hi. apply andb_prop in B as [B1 B2]. apply Reqbb_true in B2.
        intro H. apply (H i); [lia| |exact B2]. apply scount_voted; [lia|]. intro G. rewrite (proj2 (Reqbb_true _ _) G) in B1. discriminate. }
      rewrite (sv_ll_nan _ _ _ _ _ _ S N), (sv_ll_nan _ _ _ _ _ _ S' N). reflexivity.
    - assert (N : all_spread a (iterate a (n - 1))).
      { intros i Hi V Z.
        assert (B' : existsb (fun i => negb (Reqbb (scount a i) 0) && Reqbb (rms a (iterate a (n - 1)) i) 0) (seq 0 (dS a)) = true); [|congruence].
        apply existsb_exists. exists i. split; [apply in_seq; lia|]. rewrite (proj2 (Reqbb_true _ _) Z). rewrite andb_true_r.
        destruct (Reqbb (scount a i) 0) eqn:G; [|reflexivity]. apply Reqbb_true in G. apply voted_count in V. lra. }
      rewrite (sv_ll _ _ _ _ _ _ S N), (sv_ll _ _ _ _ _ _ S' N). reflexivity.
  Qed.
  Lemma spread_dec : forall a p, all_spread a p \/ ~ all_spread a p.
  Proof.
    intros a p. destruct (existsb (fun i => negb (Reqbb (scount a i) 0) && Reqbb (rms a p i) 0) (seq 0 (dS a))) eqn:B.
    - right. apply existsb_exists in B as (i & Hi & B). apply in_seq in Hi. apply andb_prop in B as [B1 B2]. apply Reqbb_true in B2.
      intro H. apply (H i); [lia| |exact B2]. apply scount_voted; [lia|]. intro G. rewrite (proj2 (Reqbb_true _ _) G) in B1. discriminate.
    - left. intros i Hi V Z.
      assert (B' : existsb (fun i => negb (Reqbb (scount a i) 0) && Reqbb (rms a p i) 0) (seq 0 (dS a)) = true); [|congruence].
      apply existsb_exists. exists i. split; [apply in_seq; lia|]. rewrite (proj2 (Reqbb_true _ _) Z). rewrite andb_true_r.
      destruct (Reqbb (scount a i) 0) eqn:G; [|reflexivity]. apply Reqbb_true in G. apply voted_count in V. lra.
  Qed.
  Lemma c39 : forall c (rd : reader ef) a m m', rd_arr rd = Ok a -> finite_votes a -> all_voted a ->
    ap_run_modeling chi c rd no_options (Some true) = Ok m -> ap_run_modeling chi c rd no_options (Some false) = Ok m' ->
    (exists bs, ap_bias m = map Fin bs /\ length bs = dS a /\ Rsum bs = 0) /\
    (exists k, ap_quality m = map (affine 1 k) (ap_quality m') /\ ap_bias m = map (affine 1 (- k)) (ap_bias m')) /\
    (forall e i r, inside a e i r -> at3 (ap_recon m) e i r = at3 (ap_recon m') e i r) /\
    ap_scores_mean m = ap_scores_mean m' /\ same_uncertainty m' m.
  Proof.
    intros c rd a m m' Ha HF HV Hm Hm'.
    assert (HR := run_rated c rd _ a m Ha HF Hm).
    destruct (run_solved c rd (Some true) a m Ha HF (or_introl HV) Hm) as (n & Hn & S).
    destruct (run_solved c rd (Some false) a m' Ha HF (or_introl HV) Hm') as (n' & Hn' & S').
    rewrite (stops_unique a n' n Hn' Hn) in *. cbn beta iota in S, S'.
    set (p := iterate a n) in *.
    assert (BV : forall g : nat -> R, map (fun i => if_voted a i (Fin (g i))) (seq 0 (dS a)) = map Fin (map g (seq 0 (dS a)))).
    { intro g. rewrite map_map. apply map_ext_in. intros i Hi. apply in_seq in Hi. unfold if_voted.
      destruct (Req_EM_T (scount a i) 0) as [Z|Z]; [|reflexivity]. assert (G := voted_count a i (HV i ltac:(lia))). lra. }
    split; [|split; [|split; [|split]]].
    - exists (map (eb_ (reported true a p)) (seq 0 (dS a))). split; [rewrite (sv_bias _ _ _ _ _ _ S); apply BV|].
      split; [rewrite map_length, seq_length; reflexivity|]. cbn [reported shifted eb_].
      rewrite Rsum_map_sub, Rsum_map_const, seq_length. unfold mean_bias, Rmean. rewrite map_length, seq_length.
      destruct (Nat.eq_dec (dS a) 0) as [Z|Z].
      + rewrite Z. cbn [seq map]. change (Rsum []) with 0. change (INR 0) with 0. unfold Rdiv. ring.
      + field. apply not_0_INR. exact Z.
    - exists (mean_bias a p). split.
      + rewrite (sv_quality _ _ _ _ _ _ S), (sv_quality _ _ _ _ _ _ S'), map_map. apply map_ext. intro e. cbn [affine reported shifted eq_]. f_equal. fold p. ring.
      + rewrite (sv_bias _ _ _ _ _ _ S), (sv_bias _ _ _ _ _ _ S'), map_map. apply map_ext. intro e. unfold if_voted. destruct (Req_EM_T _ _); [reflexivity|].
        cbn [affine reported shifted eb_]. f_equal. fold p. ring.
    - intros e i r HI. rewrite (sv_recon _ _ _ _ _ _ S), (sv_recon _ _ _ _ _ _ S') by exact HI. reflexivity.
    - rewrite (sv_scores_mean _ _ _ _ _ _ S), (sv_scores_mean _ _ _ _ _ _ S'). reflexivity.
    - assert (LL : ap_ll m = ap_ll m').
      { destruct (spread_dec a (iterate a (n - 1))) as [N|N].
        - rewrite (sv_ll _ _ _ _ _ _ S N), (sv_ll _ _ _ _ _ _ S' N). reflexivity.
        - rewrite (sv_ll_nan _ _ _ _ _ _ S N), (sv_ll_nan _ _ _ _ _ _ S' N). reflexivity. }
      unfold same_uncertainty.
      destruct (sv_quality_ci _ _ _ _ _ _ S) as (-> & ->). destruct (sv_bias_ci _ _ _ _ _ _ S) as (-> & ->).
      destruct (sv_quality_ci _ _ _ _ _ _ S') as (-> & ->). destruct (sv_bias_ci _ _ _ _ _ _ S') as (-> & ->).
      rewrite (sv_incons_lo _ _ _ _ _ _ S), (sv_incons_lo _ _ _ _ _ _ S'), (sv_incons_hi _ _ _ _ _ _ S), (sv_incons_hi _ _ _ _ _ _ S').
      rewrite (sv_aic _ _ _ _ _ _ S), (sv_aic _ _ _ _ _ _ S'), (sv_bic _ _ _ _ _ _ S), (sv_bic _ _ _ _ _ _ S'), LL.
      rewrite (sv_quality_std _ _ _ _ _ _ S), (sv_quality_std _ _ _ _ _ _ S'), (sv_bias_std _ _ _ _ _ _ S), (sv_bias_std _ _ _ _ _ _ S'),
        (sv_incons _ _ _ _ _ _ S), (sv_incons _ _ _ _ _ _ S'), (sv_incons_std _ _ _ _ _ _ S), (sv_incons_std _ _ _ _ _ _ S'),
        (sv_scores_std _ _ _ _ _ _ S), (sv_scores_std _ _ _ _ _ _ S'), (sv_iter _ _ _ _ _ _ S), (sv_iter _ _ _ _ _ _ S'), (sv_dof _ _ _ _ _ _ S), (sv_dof _ _ _ _ _ _ S').
      repeat split.
  Qed.

  (** *** Noise-free data *)
  Section Exact.
    Context (a : arr3 ef) (q b : nat -> R).
    Hypothesis Hat : forall e i r, inside a e i r -> at3 a e i r = Fin (q e + b i).
    Hypothesis HS : (0 < dS a)%nat.
    Hypothesis HR : (0 < dR a)%nat.
    Let mb := Rmean (map b (seq 0 (dS a))).
    Lemma ex_complete : complete_votes a.
    Proof. intros e i r HI. rewrite Hat by exact HI. exact I. Qed.
    Lemma ex_rated : all_rated a.
    Proof. intros e He. exists 0%nat, 0%nat, (q e + b 0%nat). split; [repeat split; assumption|]. apply Hat. repeat split; assumption. Qed.
    Lemma ex_voted : (0 < dE a)%nat -> all_voted a.
    Proof. intros He i Hi. exists 0%nat, 0%nat, (q 0%nat + b i). split; [repeat split; assumption|]. apply Hat. repeat split; assumption. Qed.
    Lemma ex_vsum : forall e f, (e < dE a)%nat -> vsum a e f = vsum a e (fun i _ => f i (q e + b i)).
    Proof. intros e f He. apply vsum_ext. intros i r v Hi Hr E. rewrite Hat in E by (repeat split; assumption). congruence. Qed.
    Lemma ex_ssum : forall i f, (i < dS a)%nat -> ssum a i f = ssum a i (fun e _ => f e (q e + b i)).
    Proof. intros i f Hi. apply ssum_ext. intros e r v He Hr E. rewrite Hat in E by (repeat split; assumption). congruence. Qed.
    Lemma ex_start_q : forall e, (e < dE a)%nat -> mean_vote a e = q e + mb.
    Proof.
      intros e He. unfold mean_vote. rewrite ex_vsum by exact He. rewrite (vsum_add a e (fun _ _ => q e) (fun i _ => b i)), vsum_const.
      rewrite (complete_balanced a b ex_complete e He). fold mb. assert (G := rated_count a e (ex_rated e He)). field. lra.
    Qed.
    Lemma ex_diff : forall s i, (forall e, (e < dE a)%nat -> s e = q e + mb) -> (i < dS a)%nat -> voted a i -> mean_diff a s i = b i - mb.
    Proof.
      intros s i Hs Hi V. unfold mean_diff. rewrite ex_ssum by exact Hi. assert (G := voted_count a i V).
      rewrite (ssum_ext a i _ (fun _ _ => b i - mb)); [rewrite ssum_const; field; lra|]. intros e r v He _ _. rewrite Hs by exact He. ring.
    Qed.
    Definition exact_est (p : est) : Prop := (forall e, (e < dE a)%nat -> eq_ p e = q e + mb) /\ (forall i, (i < dS a)%nat -> voted a i -> eb_ p i = b i - mb).
    Lemma ex_start : exact_est (start a).
    Proof. split; [exact ex_start_q|]. intros i Hi V. apply ex_diff; [exact ex_start_q|exact Hi|exact V]. Qed.
    Lemma ex_rms : forall p i, exact_est p -> (i < dS a)%nat -> voted a i -> rms a p i = 0.
    Proof.
      intros p i (Q & B) Hi V. unfold rms. rewrite ex_ssum by exact Hi.
      rewrite (ssum_ext a i _ (fun _ _ => 0)).
      - rewrite ssum_const. unfold Rdiv. rewrite !Rmult_0_l. apply sqrt_0.
      - intros e r v He _ _. rewrite Q by exact He. rewrite B by assumption. ring.
    Qed.
    Lemma ex_next : forall p, exact_est p -> exact_est (next a p).
    Proof.
      intros p M.
      assert (Q : forall e, (e < dE a)%nat -> debiased_mean a p e = q e + mb).
      { intros e He. unfold debiased_mean.
        assert (P : 0 < vsum a e (fun i _ => weight a p i)) by (apply rated_pos; [apply ex_rated; exact He|intros; apply weight_pos]).
        rewrite ex_vsum by exact He. rewrite (vsum_ext a e _ (fun i _ => (q e + mb) * weight a p i)).
        - rewrite (vsum_mul a e (q e + mb) (fun i _ => weight a p i)). field. lra.
        - intros i r v Hi Hr E. destruct M as (_ & B). rewrite B; [ring|exact Hi|]. exists e, r, v. split; [repeat split; assumption|exact E]. }
      split; [exact Q|]. intros i Hi V. cbn [next eb_]. apply ex_diff; assumption.
    Qed.
    Lemma ex_stops : stops a 1.
    Proof.
      split; [lia|]. split; [|intros m Hm; lia]. left. unfold change. change (1 - 1)%nat with 0%nat.
      cbn [iterate]. destruct (ex_next _ ex_start) as (Q1 & _). destruct ex_start as (Q0 & _).
      rewrite (Rsum_map_ext nat _ (fun _ => 0)); [rewrite Rsum_zeros, sqrt_0; lra|].
      intros e He. apply in_seq in He. rewrite Q0, Q1 by lia. ring.
    Qed.
  End Exact.

  Lemma c44 : forall c (rd : reader ef) f a q b m, rd_arr rd = Ok a ->
    (0 < dE a)%nat -> (0 < dS a)%nat -> (0 < dR a)%nat ->
    (forall e i r, inside a e i r -> at3 a e i r = Fin (q e + b i)) ->
    ap_run_modeling chi c rd no_options f = Ok m ->
    let mb := Rmean (map b (seq 0 (dS a))) in
    ap_quality m = map (fun e => Fin (q e + mb)) (seq 0 (dE a)) /\
    ap_bias m = map (fun i => Fin (b i - mb)) (seq 0 (dS a)) /\
    ap_incons m = map (fun _ => Fin 0) (seq 0 (dS a)) /\
    ap_quality_std m = map (fun _ => Fin 0) (seq 0 (dE a)) /\
    ap_bias_std m = map (fun _ => Fin 0) (seq 0 (dS a)) /\
    (forall e i r, inside a e i r -> at3 (ap_recon m) e i r = at3 a e i r) /\
    ap_iter m = 1%nat.
  Proof.
    intros c rd f a q b m Ha HE HS HR Hat Hm mb.
    assert (HF := complete_finite a (ex_complete a q b Hat)). assert (HV := ex_voted a q b Hat HR HE).
    assert (HRt := ex_rated a q b Hat HS HR).
    destruct (run_solved c rd f a m Ha HF (or_introl HV) Hm) as (n & Hn & S).
    rewrite (stops_unique a n 1 Hn (ex_stops a q b Hat HS HR)) in S. clear n Hn.
    change (1 - 1)%nat with 0%nat in S.
    assert (M0 := ex_start a q b Hat HS HR). assert (M1 := ex_next a q b Hat HS HR _ M0).
    set (fo := match f with Some b => b | None => true end) in *.
    assert (MB : mean_bias a (iterate a 1) = 0).
    { unfold mean_bias. cbn [iterate]. unfold Rmean. rewrite map_length, seq_length.
      rewrite (Rsum_map_ext nat (eb_ (next a (start a))) (fun i => b i - mb)).
      - rewrite Rsum_map_sub, Rsum_map_const, seq_length. unfold mb, Rmean. rewrite map_length, seq_length. field. apply not_0_INR. lia.
      - intros i Hi. apply in_seq in Hi. apply M1; [lia|]. apply HV. lia. }
    assert (MR : exact_est a q b (reported fo a (iterate a 1))).
    { unfold reported. destruct fo; [|exact M1]. destruct M1 as (Q & B). rewrite MB. split; cbn [shifted eq_ eb_ iterate].
      - intros e He. rewrite Q by exact He. ring.
      - intros i Hi V. rewrite B by assumption. ring. }
    assert (IVf : forall i v, (i < dS a)%nat -> if_voted a i v = v).
    { intros i v Hi. unfold if_voted. destruct (Req_EM_T (scount a i) 0) as [Z|Z]; [|reflexivity]. assert (G := voted_count a i (HV i Hi)). lra. }
    assert (RM : forall i, (i < dS a)%nat -> rms a (iterate a 0) i = 0).
    { intros i Hi. apply (ex_rms a q b Hat); [exact M0|exact Hi|]. apply HV. exact Hi. }
    split; [|split; [|split; [|split; [|split; [|split]]]]].
    - rewrite (sv_quality _ _ _ _ _ _ S). apply map_ext_in. intros e He. apply in_seq in He. f_equal. apply MR. lia.
    - rewrite (sv_bias _ _ _ _ _ _ S). apply map_ext_in. intros i Hi. apply in_seq in Hi. rewrite IVf by lia. f_equal. apply MR; [lia|]. apply HV. lia.
    - rewrite (sv_incons _ _ _ _ _ _ S). apply map_ext_in. intros i Hi. apply in_seq in Hi. rewrite IVf by lia. f_equal. apply RM. lia.
    - rewrite (sv_quality_std _ _ _ _ _ _ S). change (1 - 1)%nat with 0%nat. apply map_ext_in. intros e He. apply in_seq in He. f_equal. destruct (is_alt c).
      + assert (Z : video_spread a (iterate a 0) e = 0).
        { assert (MR0 : mean_residual a (iterate a 0) e = 0).
          { unfold mean_residual. rewrite (ex_vsum a q b Hat) by lia. rewrite (vsum_ext a e _ (fun _ _ => 0)); [rewrite vsum_const; unfold Rdiv; ring|].
            intros i r v Hi Hr E. destruct M0 as (Q & B). cbn [iterate]. rewrite Q by lia. rewrite B; [ring|exact Hi|]. apply HV. exact Hi. }
          unfold video_spread. rewrite MR0. rewrite (ex_vsum a q b Hat) by lia. rewrite (vsum_ext a e _ (fun _ _ => 0)).
          - rewrite vsum_const. unfold Rdiv. rewrite !Rmult_0_l. apply sqrt_0.
          - intros i r v Hi Hr E. destruct M0 as (Q & B). cbn [iterate]. rewrite Q by lia. rewrite B; [ring|exact Hi|]. apply HV. exact Hi. }
        rewrite Z. unfold Rdiv. ring.
      + unfold quality_se. rewrite (vsum_ext a e (fun i _ => if Req_EM_T (rms a (iterate a 0) i) 0 then 1 else 0) (fun _ _ => 1)).
        * fold (vcount a e). destruct (Req_EM_T (vcount a e) 0) as [Z|Z]; [|reflexivity]. assert (G := rated_count a e (HRt e ltac:(lia))). lra.
        * intros i r v Hi Hr E. rewrite RM by exact Hi. destruct (Req_EM_T 0 0); [reflexivity|contradiction].
    - rewrite (sv_bias_std _ _ _ _ _ _ S). change (1 - 1)%nat with 0%nat. apply map_ext_in. intros i Hi. apply in_seq in Hi. rewrite RM by lia.
      destruct (Req_EM_T (scount a i) 0) as [Z|Z]; [assert (G := voted_count a i (HV i ltac:(lia))); lra|]. f_equal. unfold Rdiv. ring.
    - intros e i r HI. rewrite (sv_recon _ _ _ _ _ _ S) by exact HI. destruct HI as (He & Hi & Hr). rewrite IVf by exact Hi.
      rewrite Hat by (repeat split; assumption). f_equal. destruct M1 as (Q & B). cbn [iterate]. rewrite Q, B; [ring|exact Hi|apply HV; exact Hi|exact He].
    - apply (sv_iter _ _ _ _ _ _ S).
  Qed.
End S.
