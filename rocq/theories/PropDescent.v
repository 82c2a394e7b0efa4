(** Theorems for claims C120-C122: progress of the projection solver. *)
From Coq Require Import String.
From Coq Require Import List ZArith Bool Arith Reals Lra Lia.
From Verif Require Import PyBase Num ExtReal NumPy Dataset Preproc Mos AP SpecMos SpecAp SpecDescent ExtRealProofs ApProofs Ap2Proofs DescentProofs MosWitness ApWitness.
Import ListNotations.
Local Open Scope R_scope.

(** C120: a pass never makes the fit worse, and improves it unless the scores
    stay the same. *)
Theorem C120_descent : forall x s b e', finite_votes x -> all_rated x -> reachable x s b -> ap_pass x s b = Ok e' ->
  misfit x (es e') (eb e') <= misfit x s b /\ (misfit x (es e') (eb e') = misfit x s b <-> es e' = s).
Proof. exact c120_descent. Qed.
Print Assumptions C120_descent.

(** C120: the result fits the votes no worse than the mean opinion scores with
    whatever biases, and better if there was more than one pass. *)
Theorem C120_result : forall chi c (rd : reader ef) f a m, rd_arr rd = Ok a -> (all_voted a \/ f = Some false) -> ap_run_modeling chi c rd no_options f = Ok m ->
  forall s0 b0, (forall e, (e < dE a)%nat -> value s0 e = Rmean (video_votes a e)) ->
    misfit a (ap_quality m) (ap_bias m) <= misfit a s0 b0 /\ ((1 < ap_iter m)%nat -> misfit a (ap_quality m) (ap_bias m) < misfit a s0 b0).
Proof. exact c120_result. Qed.
Print Assumptions C120_result.

Example C120_nonvacuous : forall chi, finite_votes (w_arr wp_ds) /\ all_rated (w_arr wp_ds) /\ all_voted (w_arr wp_ds) /\
  (exists s b e', reachable (w_arr wp_ds) s b /\ ap_pass (w_arr wp_ds) s b = Ok e') /\
  rd_arr (w_reader wp_ds) = Ok (w_arr wp_ds) /\ exists m, ap_run_modeling chi Projection (w_reader wp_ds) no_options None = Ok m.
Proof.
  intros chi. split; [exact wp_finite|]. split; [exact wp_rated|]. split; [exact wp_voted|]. split; [do 3 eexists; split; [apply reach_start|reflexivity]|].
  split; [exact (proj1 (proj2 (w_reads wp_ds ltac:(cbn; tauto))))|]. apply (w_run chi Projection wp_ds None); [cbn; tauto|exact wp_finite|exact wp_rated].
Qed.

(** C121: without the limit of 1000 passes every threshold would be met. *)
Theorem C121_converges : forall x, finite_votes x -> all_rated x -> forall d, 0 < d ->
  exists n0, forall n s b e', (n0 <= n)%nat -> after x n s b -> ap_pass x s b = Ok e' -> distance x s (es e') < d.
Proof. exact c121_converges. Qed.
Print Assumptions C121_converges.

(** C121: there is always a next pass. *)
Theorem C121_passes : forall x n, finite_votes x -> all_rated x -> exists s b e', after x n s b /\ ap_pass x s b = Ok e'.
Proof. exact after_exists. Qed.
Print Assumptions C121_passes.

Example C121_nonvacuous : exists n s b e', after (w_arr wp_ds) n s b /\ ap_pass (w_arr wp_ds) s b = Ok e' /\ distance (w_arr wp_ds) s (es e') < 1 / 100000000.
Proof.
  destruct (C121_converges (w_arr wp_ds) wp_finite wp_rated (1 / 100000000) ltac:(lra)) as (n & H). destruct (C121_passes (w_arr wp_ds) n wp_finite wp_rated) as (s & b & e' & A & E).
  exists n, s, b, e'. split; [exact A|]. split; [exact E|]. exact (H n s b e' (le_n n) A E).
Qed.

(** C122: a pass changes nothing exactly where all slopes of the misfit are 0. *)
Theorem C122_stationary : forall x, finite_votes x -> all_rated x -> all_voted x -> forall q b : nat -> R,
  let s := map (fun e => Fin (q e)) (seq 0 (dE x)) in let bl := map (fun i => Fin (b i)) (seq 0 (dS x)) in
  (exists e', ap_pass x s bl = Ok e' /\ es e' = s /\ eb e' = bl) <->
  (forall k, (k < dE x)%nat -> derivable_pt_lim (fun t => misfit x (with_value s k t) bl) (q k) 0) /\
  (forall k, (k < dS x)%nat -> derivable_pt_lim (fun t => misfit x s (with_value bl k t)) (b k) 0).
Proof. exact c122. Qed.
Print Assumptions C122_stationary.

(** Three votes; the second subject did not rate the second video. *)
Definition w_sum (e i r : nat) : ef := if andb (Nat.eqb e 1) (Nat.eqb i 1) then NaN else Fin (INR e + INR i + 2).
Definition w_exact : arr3 ef := Arr3 2 2 1 w_sum.
Example C122_nonvacuous : finite_votes w_exact /\ all_rated w_exact /\ all_voted w_exact /\
  let s := map (fun e => Fin (INR e + 2)) (seq 0 2) in let bl := map (fun i => Fin (INR i)) (seq 0 2) in
  exists e', ap_pass w_exact s bl = Ok e' /\ es e' = s /\ eb e' = bl.
Proof.
  assert (F : finite_votes w_exact). { intros e i r _. cbn [w_exact at3]. unfold w_sum. destruct (andb _ _); exact I. }
  assert (Rt : all_rated w_exact). { intros e He. exists 0%nat, 0%nat, (INR e + INR 0 + 2). split; [cbn in *; repeat split; cbn; lia|]. cbn [w_exact at3]. unfold w_sum. rewrite andb_false_r. reflexivity. }
  assert (V : all_voted w_exact). { intros i Hi. exists 0%nat, 0%nat, (INR 0 + INR i + 2). split; [cbn in *; repeat split; cbn; lia|]. reflexivity. }
  split; [exact F|]. split; [exact Rt|]. split; [exact V|]. cbv zeta.
  assert (W : forall e i r v, at3 w_exact e i r = Fin v -> v = INR e + INR i + 2). { intros e i r v E. cbn [w_exact at3] in E. unfold w_sum in E. destruct (andb _ _); [discriminate|]. injection E as <-. reflexivity. }
  apply (proj2 (C122_stationary w_exact F Rt V (fun e => INR e + 2) INR)). split.
  - intros k Hk. eapply Mle2Proofs.d_val; [|apply slope_q; exact Hk]. rewrite (vsum_0 w_exact k); [ring|]. intros i r v _ _ E. rewrite (W _ _ _ _ E). ring.
  - intros k Hk. eapply Mle2Proofs.d_val; [|apply slope_b; exact Hk]. rewrite (ssum_ext w_exact k _ (fun _ _ => 0)); [rewrite ssum_const; ring|]. intros e r v _ _ E. rewrite (W _ _ _ _ E). ring.
Qed.
