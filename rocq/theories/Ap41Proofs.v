(** The theorems about runs of the projection solver without assuming that the
    votes are numbers or missing: a run that ends has such votes. *)
From Coq Require Import String.
From Coq Require Import List ZArith Bool Arith Lia Reals Lra.
From Verif Require Import PyBase Num ExtReal NumPy Dataset Preproc Mos AP SpecMos SpecAp BaseProofs ExtRealProofs
  StepsProofs MosProofs ApProofs Ap2Proofs Ap3Proofs Ap4Proofs Ap5Proofs Ap6Proofs Ap7Proofs Ap8Proofs Ap9Proofs Ap40Proofs.
Import ListNotations.

Section F.
  Variable chi : ef -> ef -> ef.
  Lemma run_finite : forall c (rd : reader ef) f a m, rd_arr rd = Ok a -> ap_run_modeling chi c rd no_options f = Ok m -> finite_votes a.
  Proof.
    intros c rd f a m Ha H. destruct (run_solve _ _ _ _ _ _ H) as (pp & m1 & Ep & E & _).
    unfold preprocess in Ep. rewrite Ha in Ep. cbn in Ep. apply Ok_inj in Ep. subst pp. exact (solve_finite _ _ _ _ _ _ E).
  Qed.

  Lemma loop_error : forall fuel itr (x : arr3 ef) s b e, ap_loop fuel itr x s b = Err e -> e = Diverges \/ e = ValueError.
  Proof.
    induction fuel as [|fuel IH]; intros itr x s b e H.
    - left. cbn in H. injection H as <-. reflexivity.
    - cbn [ap_loop] in H. unfold ap_pass in H. cbn [weighed_nanmean_2d bind] in H.
      unfold sp_norm in H. destruct (existsb _ _); cbn [bind] in H; [right; injection H as <-; reflexivity|].
      destruct (_ <? _)%num; [discriminate|]. destruct (Nat.leb _ _); [discriminate|]. exact (IH _ _ _ _ _ H).
  Qed.
  Lemma solve_error : forall alt force (x x0 : arr3 ef) e, ap_solve chi alt force x x0 = Err e -> e = ValueError.
  Proof.
    intros alt force x x0 e H. assert (T := solve_terminates chi alt force x x0). rewrite H in T.
    unfold ap_solve in H. cbv zeta in H. destruct (ap_loop _ _ _ _ _) as [[en n]|ex] eqn:E; cbn [bind] in H.
    - destruct (zero_mean _ _ _). discriminate.
    - injection H as <-. destruct (loop_error _ _ _ _ _ _ E) as [-> | ->]; [congruence|reflexivity].
  Qed.
  Lemma run_error : forall c ds (rd : reader ef) f a e, raw_reader ds = Ok rd -> rd_arr rd = Ok a ->
    ap_run_modeling chi c rd no_options f = Err e -> e = ValueError.
  Proof.
    intros c ds rd f a e Hd Ha H. unfold ap_run_modeling in H. unfold preprocess in H. rewrite Ha in H. cbn -[ap_solve attach_observers] in H.
    destruct (ap_solve chi _ _ _ _) as [m1|ex] eqn:E; cbn [bind] in H.
    - destruct (attach_total ds rd Hd) as (o & Eo). rewrite Eo in H. discriminate.
    - injection H as <-. exact (solve_error _ _ _ _ _ E).
  Qed.

  Lemma c70_total_any : forall c ds (rd : reader ef) f a, raw_reader ds = Ok rd -> rd_arr rd = Ok a ->
    ((finite_votes a /\ all_rated a) <-> exists m, ap_run_modeling chi c rd no_options f = Ok m) /\
    (~ (finite_votes a /\ all_rated a) <-> ap_run_modeling chi c rd no_options f = Err ValueError).
  Proof.
    intros c ds rd f a Hd Ha.
    assert (I : (finite_votes a /\ all_rated a) <-> exists m, ap_run_modeling chi c rd no_options f = Ok m).
    { split.
      - intros [HF HR]. exact (proj1 (c70_total chi c ds rd f a Hd Ha HF) HR).
      - intros (m & H). assert (HF := run_finite c rd f a m Ha H). split; [exact HF|].
        destruct (rated_dec a) as [HR|HN]; [exact HR|]. assert (HN' : ~ all_rated a) by (intro HR; destruct HN as (e & He & Hn); apply Hn; exact (HR e He)).
        rewrite (proj2 (c70_total chi c ds rd f a Hd Ha HF) HN') in H. discriminate. }
    split; [exact I|]. split.
    - intro HN. destruct (ap_run_modeling chi c rd no_options f) as [m|e] eqn:E.
      + exfalso. apply HN. apply I. exists m. reflexivity.
      + f_equal. exact (run_error c ds rd f a e Hd Ha E).
    - intros H HR. apply I in HR. destruct HR as (m & H'). rewrite H in H'. discriminate.
  Qed.

  Lemma run_solved_any : forall c (rd : reader ef) f a m, rd_arr rd = Ok a ->
    (all_voted a \/ f = Some false) -> ap_run_modeling chi c rd no_options f = Ok m ->
    exists n, stops a n /\ solved chi (is_alt c) (match f with Some b => b | None => true end) a n m.
  Proof. intros c rd f a m Ha HV H. exact (run_solved chi c rd f a m Ha (run_finite c rd f a m Ha H) HV H). Qed.

  Lemma run_poisoned_any : forall c (rd : reader ef) f a m, rd_arr rd = Ok a ->
    ~ all_voted a -> f <> Some false -> ap_run_modeling chi c rd no_options f = Ok m ->
    exists m0, ap_run_modeling chi c rd no_options (Some false) = Ok m0 /\ poisoned a m0 m.
  Proof. intros c rd f a m Ha HV Hf H. exact (run_poisoned chi c rd f a m Ha (run_finite c rd f a m Ha H) HV Hf H). Qed.
End F.

(** The remaining statements. *)
Section G.
  Variable chi : ef -> ef -> ef.
  Lemma c39_any : forall c (rd : reader ef) a m m', rd_arr rd = Ok a -> all_voted a ->
    ap_run_modeling chi c rd no_options (Some true) = Ok m -> ap_run_modeling chi c rd no_options (Some false) = Ok m' ->
    (exists bs, ap_bias m = map Fin bs /\ length bs = dS a /\ Rsum bs = 0%R) /\
    (exists k, ap_quality m = map (affine 1 k) (ap_quality m') /\ ap_bias m = map (affine 1 (- k)) (ap_bias m')) /\
    (forall e i r, inside a e i r -> at3 (ap_recon m) e i r = at3 (ap_recon m') e i r) /\
    ap_scores_mean m = ap_scores_mean m' /\ same_uncertainty m' m.
  Proof. intros c rd a m m' Ha HV H. exact (c39 chi c rd a m m' Ha (run_finite chi c rd _ a m Ha H) HV H). Qed.

  Lemma c41_any : forall c (rd rd' : reader ef) f a a' k m m', rd_arr rd = Ok a -> rd_arr rd' = Ok a' -> transformed (affine 1 k) a a' ->
    ap_run_modeling chi c rd no_options f = Ok m -> ap_run_modeling chi c rd' no_options f = Ok m' ->
    ap_quality m' = map (affine 1 k) (ap_quality m) /\ ap_bias m' = ap_bias m /\
    ap_scores_mean m' = map (affine 1 k) (ap_scores_mean m) /\
    (forall e i r, inside a e i r -> at3 (ap_recon m') e i r = affine 1 k (at3 (ap_recon m) e i r)) /\
    same_uncertainty m m'.
  Proof. intros c rd rd' f a a' k m m' Ha Ha' HT H. exact (c41 chi c rd rd' f a a' k m m' Ha Ha' (run_finite chi c rd _ a m Ha H) HT H). Qed.

  Lemma c43_any : forall c (rd rd' : reader ef) f a a' pi sg m m',
    rd_arr rd = Ok a -> rd_arr rd' = Ok a' -> permutes (dE a) pi -> permutes (dS a) sg ->
    dE a' = dE a -> dS a' = dS a -> dR a' = dR a -> (forall e i r, inside a e i r -> at3 a' e i r = at3 a (pi e) (sg i) r) ->
    ap_run_modeling chi c rd no_options f = Ok m -> ap_run_modeling chi c rd' no_options f = Ok m' ->
    (let re := reindex (dE a) pi in
     ap_quality m' = re (ap_quality m) /\ ap_quality_std m' = re (ap_quality_std m) /\ ap_quality_lo m' = re (ap_quality_lo m) /\ ap_quality_hi m' = re (ap_quality_hi m)) /\
    (let re := reindex (dS a) sg in
     ap_bias m' = re (ap_bias m) /\ ap_bias_std m' = re (ap_bias_std m) /\ ap_bias_lo m' = re (ap_bias_lo m) /\ ap_bias_hi m' = re (ap_bias_hi m) /\
     ap_incons m' = re (ap_incons m) /\ ap_incons_std m' = re (ap_incons_std m) /\ ap_incons_lo m' = re (ap_incons_lo m) /\ ap_incons_hi m' = re (ap_incons_hi m) /\
     ap_scores_mean m' = re (ap_scores_mean m) /\ ap_scores_std m' = re (ap_scores_std m)) /\
    (forall e i r, inside a e i r -> at3 (ap_recon m') e i r = at3 (ap_recon m) (pi e) (sg i) r) /\
    ap_iter m' = ap_iter m /\ ap_dof m' = ap_dof m /\ ap_ll m' = ap_ll m /\ ap_aic m' = ap_aic m /\ ap_bic m' = ap_bic m.
  Proof.
    intros c rd rd' f a a' pi sg m m' Ha Ha' P1 P2 D1 D2 D3 HA H.
    exact (c43 chi c rd rd' f a a' pi sg m m' Ha Ha' (run_finite chi c rd _ a m Ha H) P1 P2 D1 D2 D3 HA H).
  Qed.

  Lemma c46_any : forall c (rd rd' : reader ef) a a' m m', rd_arr rd = Ok a -> rd_arr rd' = Ok a' -> idle_subjects a a' ->
    ap_run_modeling chi c rd no_options (Some false) = Ok m -> ap_run_modeling chi c rd' no_options (Some false) = Ok m' ->
    ap_quality m' = ap_quality m /\ ap_quality_std m' = ap_quality_std m /\ ap_quality_lo m' = ap_quality_lo m /\ ap_quality_hi m' = ap_quality_hi m /\
    ap_bias m' = ap_bias m ++ repeat NaN (dS a' - dS a) /\ ap_incons m' = ap_incons m ++ repeat NaN (dS a' - dS a) /\
    ap_iter m' = ap_iter m.
  Proof. intros c rd rd' a a' m m' Ha Ha' HI H. exact (c46 chi c rd rd' a a' m m' Ha Ha' (run_finite chi c rd _ a m Ha H) HI H). Qed.

  Lemma c46_default_any : forall c (rd' : reader ef) f a a' m', rd_arr rd' = Ok a' -> idle_subjects a a' -> (dS a < dS a')%nat -> f <> Some false ->
    ap_run_modeling chi c rd' no_options f = Ok m' -> ap_quality m' = repeat NaN (dE a') /\ ap_bias m' = repeat NaN (dS a').
  Proof.
    intros c rd' f a a' m' Ha HI Hs Hf H. refine (c46_default chi c rd' f a a' m' Ha _ HI Hs Hf H).
    assert (HF := run_finite chi c rd' f a' m' Ha H). destruct HI as (D1 & D2 & D3 & HA & _).
    intros e i r Hin. rewrite <- (HA e i r Hin). apply HF. destruct Hin as (He & Hi & Hr). unfold inside. rewrite D1, D3. repeat split; lia.
  Qed.
End G.
