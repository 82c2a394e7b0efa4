(** The reference programs on votes of any kind: a run that ends has votes that
    are numbers or missing. *)
From Coq Require Import String.
From Coq Require Import List ZArith Bool Arith Lia Reals Lra.
From Verif Require Import PyBase Num ExtReal NumPy Dataset Preproc Mos AP Demo SpecMos SpecAp SpecDemo BaseProofs ExtRealProofs
  ApProofs Ap2Proofs Ap3Proofs Ap4Proofs Ap5Proofs Ap6Proofs Ap7Proofs Ap8Proofs Ap9Proofs Ap40Proofs Ap41Proofs DemoProofs DemoWitness.
Import ListNotations.

Lemma demo_finite3 : forall u r, run_alternating_projection_3d u = Ok r -> finite_votes u.
Proof.
  intros u r H. rewrite (c92_same3 (fun _ _ => NaN) u u) in H. destruct (ap_solve _ _ _ _ _) as [m|] eqn:E; [|discriminate].
  exact (solve_finite _ _ _ _ _ _ E).
Qed.
Lemma demo_error3 : forall u e, run_alternating_projection_3d u = Err e -> e = ValueError.
Proof.
  intros u e H. rewrite (c92_same3 (fun _ _ => NaN) u u) in H. destruct (ap_solve _ _ _ _ _) as [m|e'] eqn:E; [discriminate|].
  injection H as <-. exact (solve_error _ _ _ _ _ _ E).
Qed.
Lemma c92_outcome3_any : forall u,
  ((finite_votes u /\ all_rated u) <-> exists r, run_alternating_projection_3d u = Ok r) /\
  (~ (finite_votes u /\ all_rated u) <-> run_alternating_projection_3d u = Err ValueError).
Proof.
  intro u.
  assert (Q : (finite_votes u /\ all_rated u) <-> exists r, run_alternating_projection_3d u = Ok r).
  { split.
    - intros [HF HR]. exact (proj1 (c92_outcome3 u HF) HR).
    - intros (r & H). assert (HF := demo_finite3 u r H). split; [exact HF|].
      destruct (rated_dec u) as [HR|(e & He & Hn)]; [exact HR|].
      rewrite (proj2 (c92_outcome3 u HF)) in H; [discriminate|]. intro HR. exact (Hn (HR e He)). }
  split; [exact Q|]. split.
  - intro HN. destruct (run_alternating_projection_3d u) as [r|e] eqn:E.
    + exfalso. apply HN, Q. eauto.
    + f_equal. exact (demo_error3 u e E).
  - intros H HR. apply Q in HR. destruct HR as (r & H'). rewrite H in H'. discriminate.
Qed.
Lemma c92_zero3_any : forall u r, all_voted u -> run_alternating_projection_3d u = Ok r ->
  exists bs, dr_bias r = map Fin bs /\ List.length bs = dS u /\ Rsum bs = 0%R.
Proof. intros u r HV H. exact (c92_zero3 u r (demo_finite3 u r H) HV H). Qed.

Section S.
  Variable parse : string -> res ef.
  Lemma as_3d : forall file J I a, (0 < J)%nat -> table parse file J I a -> demo_p910 parse file = run_alternating_projection_3d (votes2 J I a).
  Proof.
    intros file J I a HJ Ht. rewrite (c92_program2 (fun _ _ => NaN) parse file J I a HJ Ht).
    change (Arr3 J I 1 (fun j i _ => a j i)) with (votes2 J I a). symmetry. apply c92_same3.
  Qed.
  Lemma c92_outcome2_any : forall file J I a, (0 < J)%nat -> table parse file J I a ->
    ((finite_votes (votes2 J I a) /\ all_rated (votes2 J I a)) <-> exists r, demo_p910 parse file = Ok r) /\
    (~ (finite_votes (votes2 J I a) /\ all_rated (votes2 J I a)) <-> demo_p910 parse file = Err ValueError).
  Proof. intros file J I a HJ Ht. rewrite (as_3d file J I a HJ Ht). apply c92_outcome3_any. Qed.
  Lemma c92_zero2_any : forall file J I a r, (0 < J)%nat -> table parse file J I a -> all_voted (votes2 J I a) -> demo_p910 parse file = Ok r ->
    exists bs, dr_bias r = map Fin bs /\ List.length bs = I /\ Rsum bs = 0%R.
  Proof. intros file J I a r HJ Ht HV H. rewrite (as_3d file J I a HJ Ht) in H. exact (c92_zero3_any _ r HV H). Qed.
End S.
