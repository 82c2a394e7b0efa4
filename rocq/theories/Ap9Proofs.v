(** Runs of the projection solver with any preprocessing options. *)
From Coq Require Import String.
From Coq Require Import List ZArith Bool Arith Lia Reals Lra.
From Verif Require Import PyBase Num ExtReal NumPy Dataset Preproc Mos AP SpecMos SpecAp BaseProofs ExtRealProofs
  MosProofs ApProofs Ap2Proofs Ap3Proofs Ap4Proofs Ap5Proofs Ap6Proofs Ap7Proofs Ap8Proofs.
Import ListNotations.
Section R.
  Context (chi : ef -> ef -> ef).

  Lemma run_solve : forall c (rd : reader ef) k f m, ap_run_modeling chi c rd k f = Ok m ->
    exists pp m1, preprocess rd k = Ok pp /\ ap_solve chi (is_alt c) (match f with Some b => b | None => true end) (pp_arr pp) (pp_orig pp) = Ok m1 /\
      ap_iter m = ap_iter m1 /\ ap_incons m = ap_incons m1 /\ ap_incons_std m = ap_incons_std m1 /\ ap_bias_std m = ap_bias_std m1 /\
      ap_quality_std m = ap_quality_std m1 /\ ap_scores_std m = ap_scores_std m1 /\
      ap_quality_lo m = ap_quality_lo m1 /\ ap_quality_hi m = ap_quality_hi m1 /\ ap_bias_lo m = ap_bias_lo m1 /\ ap_bias_hi m = ap_bias_hi m1.
  Proof.
    intros c rd k f m H. unfold ap_run_modeling in H.
    destruct (preprocess rd k) as [pp|] eqn:E1; [|discriminate]. cbn [bind] in H.
    destruct (ap_solve chi _ _ _ _) as [m1|] eqn:E2; [|discriminate]. cbn [bind] in H.
    destruct (attach_observers rd) as [o|] eqn:E3; [|discriminate]. cbn [bind] in H.
    apply StepsProofs.Ok_inj in H. subst m. exists pp, m1. repeat split; assumption.
  Qed.

  Lemma c38 : forall c (rd : reader ef) k f m, ap_run_modeling chi c rd k f = Ok m ->
    Forall nonneg (ap_incons m) /\ Forall nonneg (ap_incons_std m) /\ Forall nonneg (ap_bias_std m) /\ Forall nonneg (ap_quality_std m) /\
    Forall nonneg (ap_scores_std m) /\
    Forall nonneg (ap_quality_lo m) /\ Forall nonneg (ap_quality_hi m) /\ Forall nonneg (ap_bias_lo m) /\ Forall nonneg (ap_bias_hi m).
  Proof.
    intros c rd k f m H. destruct (run_solve _ _ _ _ _ H) as (pp & m1 & _ & E & _ & -> & -> & -> & -> & -> & -> & -> & -> & ->).
    exact (proj2 (solve_any chi _ _ _ _ _ E)).
  Qed.

  Lemma c40_limit : forall c ds (rd : reader ef) k f pp, raw_reader ds = Ok rd -> preprocess rd k = Ok pp ->
    ap_run_modeling chi c rd k f <> Err Diverges /\ forall m, ap_run_modeling chi c rd k f = Ok m -> (1 <= ap_iter m <= 1000)%nat.
  Proof.
    intros c ds rd k f pp Hd Hp. split.
    - unfold ap_run_modeling. rewrite Hp. cbn [bind].
      assert (T := solve_terminates chi (is_alt c) (match f with Some b => b | None => true end) (pp_arr pp) (pp_orig pp)).
      destruct (ap_solve chi _ _ _ _) as [m1|e]; cbn [bind]; [|exact T].
      destruct (attach_total ds rd Hd) as (o & ->). discriminate.
    - intros m H. destruct (run_solve _ _ _ _ _ H) as (pp' & m1 & _ & E & -> & _). exact (proj1 (solve_any chi _ _ _ _ _ E)).
  Qed.

  Lemma c40_stops : forall c (rd : reader ef) k f pp m, preprocess rd k = Ok pp -> finite_votes (pp_arr pp) ->
    ap_run_modeling chi c rd k f = Ok m -> stops (pp_arr pp) (ap_iter m).
  Proof.
    intros c rd k f pp m Hp HF H. destruct (run_solve _ _ _ _ _ H) as (pp' & m1 & Ep & E & -> & _).
    rewrite Hp in Ep. apply StepsProofs.Ok_inj in Ep. subst pp'.
    destruct (rated_dec (pp_arr pp)) as [HR|HN].
    - destruct (solver_loop (pp_arr pp) HF HR) as (n & Hn & HL). unfold ap_solve in E. rewrite HL in E. cbn [bind es eb ev evj] in E.
      destruct (zero_mean _ _ _) as [q b]. apply StepsProofs.Ok_inj in E. subst m1. exact Hn.
    - exfalso. rewrite (solve_unrated chi _ _ _ _ HF HN) in E. discriminate.
  Qed.

  Lemma c70_total : forall c ds (rd : reader ef) f a, raw_reader ds = Ok rd -> rd_arr rd = Ok a -> finite_votes a ->
    (all_rated a -> exists m, ap_run_modeling chi c rd no_options f = Ok m) /\
    (~ all_rated a -> ap_run_modeling chi c rd no_options f = Err ValueError).
  Proof.
    intros c ds rd f a Hd Ha HF. split; intro H.
    - destruct (attach_total ds rd Hd) as (o & Ho). exact (run_ok chi c rd f a o Ha HF H Ho).
    - exact (run_unrated chi c rd f a Ha HF H).
  Qed.
End R.
