(** Theorems for claim C138: the densities of the likelihoods. *)
From Coq Require Import List Reals Lra Lia.
From Coquelicot Require Import Coquelicot.
From Verif Require Import PyBase Num ExtReal NumPy Mos Mle Stats SpecMos SpecDensity Stats2Proofs DensityProofs.
Import ListNotations.
Local Open Scope R_scope.

(** C138: vectorized_gaussian is a density with the given mean and standard deviation. *)
Theorem C138_gaussian : forall m s, 0 < s -> exists f, computes (fun x => gaussian x (Fin m) (Fin s)) f /\
  density f /\ has_mean f m /\ has_variance f m (s * s).
Proof. exact (fun m s S => ex_intro _ (normal_density m s) (conj (gaussian_computes m s S) (normal_density_is m s S))). Qed.
Print Assumptions C138_gaussian.
(** C138: it is the density of the sum of two independent normal numbers if the
    means and the squares of the standard deviations add up. *)
Theorem C138_sum : forall m1 s1 m2 s2 f g, 0 < s1 -> 0 < s2 ->
  computes (fun x => gaussian x (Fin m1) (Fin s1)) f -> computes (fun x => gaussian x (Fin m2) (Fin s2)) g ->
  forall x, exists v, gaussian (Fin x) (Fin (m1 + m2)) (Fin (sqrt (s1 * s1 + s2 * s2))) = Fin v /\ sum_density f g x v.
Proof. exact c138_sum. Qed.
Print Assumptions C138_sum.
(** C138: the likelihood of a vote is the density of the sum of a normal number
    with the subject's bias and inconsistency and one with the video's quality
    and the content's ambiguity. *)
Theorem C138_vote : forall x q b v a cids y, logpdf GaussianPdf x q b v a cids = Ok y ->
  forall e s r w c Q B V A, inside x e s r -> at3 x e s r = Fin w ->
  nth_error q e = Some (Fin Q) -> nth_error b s = Some (Fin B) -> nth_error v s = Some (Fin V) -> nth_error cids e = Some c -> nth_error a c = Some (Fin A) -> 0 < V -> 0 < A ->
  exists d, 0 < d /\ at3 y e s r = Fin (ln d) /\ sum_density (normal_density B V) (normal_density Q A) w d.
Proof. exact c138_vote. Qed.
Print Assumptions C138_vote.
(** C138: both ways of writing the logistic density give a density with the given mean. *)
Theorem C138_logistic : forall m s, 0 < s -> exists f,
  computes (fun x => logistic x (Fin m) (Fin s)) f /\ computes (fun x => logistic_density (Fin s) (nsub x (Fin m))) f /\ density f /\ has_mean f m.
Proof. exact c138_logistic. Qed.
Print Assumptions C138_logistic.
(** The integral over the line is unique. *)
Theorem C138_unique : forall f m n, whole f m -> whole f n -> m = n.
Proof. exact whole_unique. Qed.
Print Assumptions C138_unique.
Example C138_nonvacuous : exists y, logpdf GaussianPdf (Arr3 1 1 1 (fun _ _ _ => Fin 4)) [Fin 3] [Fin (1/2)] [Fin 1] [Fin 2] [0%nat] = Ok y /\
  inside (Arr3 1 1 1 (fun _ _ _ => Fin 4)) 0 0 0.
Proof. eexists. split; [reflexivity|]. repeat split; cbn; lia. Qed.
