(** Theorems for claim C137: mass and mean of the density of a sum of two uniforms. *)
From Coq Require Import Reals Lra.
From Coquelicot Require Import Coquelicot.
From Verif Require Import PyBase Num ExtReal Mle SpecMass Perf2Proofs MassProofs.
Local Open Scope R_scope.

(** C137: the mass is 1 wherever the intervals lie; the mean is 0 wherever they lie. *)
Theorem C137_mass : forall l1 s1 l2 s2, 0 < s1 -> 0 < s2 -> exists f,
  computes (fun x => convolution_of_two_uniforms x (Fin l1) (Fin s1) (Fin l2) (Fin s2)) f /\
  mass f (l1 + l2 - (s1 + s2) / 2) (l1 + l2 + (s1 + s2) / 2) 1 /\ first_moment f (l1 + l2 - (s1 + s2) / 2) (l1 + l2 + (s1 + s2) / 2) 0.
Proof. exact c137_mass. Qed.
Print Assumptions C137_mass.
(** C137: the mean square, which is that of the sum if the locations add up to 0. *)
Theorem C137_square : forall l1 s1 l2 s2, 0 < s1 -> 0 < s2 -> forall f,
  computes (fun x => convolution_of_two_uniforms x (Fin l1) (Fin s1) (Fin l2) (Fin s2)) f ->
  second_moment f (l1 + l2 - (s1 + s2) / 2) (l1 + l2 + (s1 + s2) / 2) ((s1 * s1 + s2 * s2) / 12 - (l1 + l2) * (l1 + l2)).
Proof. exact c137_second. Qed.
Print Assumptions C137_square.
(** C137: the convolution of the two densities, if the locations add up to 0. *)
Theorem C137_density_partial : forall x l1 s1 l2 s2, 0 < s1 -> 0 < s2 -> l1 + l2 = 0 -> exists v,
  convolution_of_two_uniforms (Fin x) (Fin l1) (Fin s1) (Fin l2) (Fin s2) = Fin v /\
  convolved (box l1 s1) (box l2 s2) (l1 - s1 / 2) (l1 + s1 / 2) x v.
Proof. exact c137_density. Qed.
Print Assumptions C137_density_partial.
(** C137 fails: for all other locations the mean is not theirs. *)
Theorem C137_mean_refuted : exists l1 s1 l2 s2, 0 < s1 /\ 0 < s2 /\ forall f,
  computes (fun x => convolution_of_two_uniforms x (Fin l1) (Fin s1) (Fin l2) (Fin s2)) f ->
  ~ first_moment f (l1 + l2 - (s1 + s2) / 2) (l1 + l2 + (s1 + s2) / 2) (l1 + l2).
Proof. exists 3, 1, 0, 2. split; [lra|]. split; [lra|]. intros f. apply c137_mean_off; lra. Qed.
Print Assumptions C137_mean_refuted.
Theorem C137_mean_off : forall l1 s1 l2 s2 f, 0 < s1 -> 0 < s2 -> l1 + l2 <> 0 ->
  computes (fun x => convolution_of_two_uniforms x (Fin l1) (Fin s1) (Fin l2) (Fin s2)) f ->
  ~ first_moment f (l1 + l2 - (s1 + s2) / 2) (l1 + l2 + (s1 + s2) / 2) (l1 + l2).
Proof. exact c137_mean_off. Qed.
Print Assumptions C137_mean_off.
Example C137_nonvacuous : exists f, computes (fun x => convolution_of_two_uniforms x (Fin 3) (Fin 1) (Fin 4) (Fin 2)) f /\ f 7 = / 2.
Proof.
  destruct (c137_mass 3 1 4 2 ltac:(lra) ltac:(lra)) as (f & HF & _). exists f. split; [exact HF|].
  assert (K : Fin (f 7) = Fin (/ Rmax 1 2)).
  { rewrite <- (HF 7). apply c59_plateau; [lra|lra|]. replace (7 - 3 - 4) with 0 by ring. rewrite Rabs_R0, Rabs_left by lra. lra. }
  injection K as K. rewrite K, Rmax_right by lra. reflexivity.
Qed.
