(** Claims C123-C126: Bradley-Terry strengths as the maximum of the likelihood
    and as the limit of the passes; Thurstone scores as the maximum. *)
From Coq Require Import List ZArith Bool Arith Reals Lia Lra.
From Verif Require Import PyBase Num ExtReal NumPy SpecMos PairedComp SpecBt SpecBtLimit BtProofs BtLimitProofs BtWitness Bt3Proofs Bt4Proofs NormalCdf ThurstoneProofs.
Import ListNotations.
Local Open Scope list_scope.
Local Open Scope R_scope.

(** C123: the loop is at rest exactly at the most likely strengths. *)
Theorem C123_maximum : forall a m w p, (0 < m)%nat -> counts a m w -> nonneg_counts m w -> each_won m w -> probabilities m p ->
  (bt_step a (vec m p) = vec m p <-> most_likely m w p).
Proof. exact c123_maximum. Qed.
Print Assumptions C123_maximum.

(** C123: there is only one such vector when comparisons connect the videos. *)
Theorem C123_unique : forall a m w p q, (0 < m)%nat -> counts a m w -> nonneg_counts m w -> each_won m w -> connected m w ->
  probabilities m p -> probabilities m q -> most_likely m w p -> most_likely m w q -> forall i, (i < m)%nat -> p i = q i.
Proof. exact c123_unique. Qed.
Print Assumptions C123_unique.

(** C123: the gradient of the Newton solver vanishes exactly at the logarithms
    of these strengths, up to a common offset. *)
Theorem C123_newton : forall a m w p g, (0 < m)%nat -> counts a m w -> nonneg_counts m w -> each_won m w -> connected m w ->
  probabilities m p -> most_likely m w p ->
  ((forall i, (i < m - 1)%nat -> nr_dL a (vec m g) i = Fin 0) <-> exists c, forall i, (i < m)%nat -> g i = ln (p i) + c).
Proof. exact c123_newton. Qed.
Print Assumptions C123_newton.

Lemma wb_linked : linked 2 wb.
Proof.
  assert (A : above 2 wb 0 1) by (apply above_beat with 1%nat; [lia|unfold wb; lra|constructor; lia]).
  assert (B : above 2 wb 1 0) by (apply above_beat with 0%nat; [lia|unfold wb; lra|constructor; lia]).
  intros i j Hi Hj. two; try assumption; constructor; lia.
Qed.
Lemma wb_connected : connected 2 wb.
Proof.
  assert (A : above 2 (games wb) 0 1) by (apply above_beat with 1%nat; [lia|unfold games, wb; lra|constructor; lia]).
  assert (B : above 2 (games wb) 1 0) by (apply above_beat with 0%nat; [lia|unfold games, wb; lra|constructor; lia]).
  intros i j Hi Hj. two; try assumption; constructor; lia.
Qed.
Lemma wb_likely : most_likely 2 wb wb_p.
Proof.
  apply (c123_maximum wb_arr); auto using wb_counts, wb_nonneg, wb_won, wb_prob.
  apply wb_step; [apply wb_prob|unfold wb_p; lra|right; reflexivity].
Qed.
Example C123_nonvacuous : counts wb_arr 2 wb /\ nonneg_counts 2 wb /\ each_won 2 wb /\ connected 2 wb /\ probabilities 2 wb_p /\
  most_likely 2 wb wb_p /\ ~ most_likely 2 wb (fun _ => 1 / 2) /\ probabilities 2 (fun _ => 1 / 2).
Proof.
  assert (P : probabilities 2 (fun _ => 1 / 2)) by (split; [intros i _; lra|rewrite total2; lra]).
  split; [exact wb_counts|]. split; [exact wb_nonneg|]. split; [exact wb_won|]. split; [exact wb_connected|]. split; [exact wb_prob|].
  split; [exact wb_likely|]. split; [|exact P]. intro M.
  assert (E := c123_unique wb_arr 2 wb _ _ ltac:(lia) wb_counts wb_nonneg wb_won wb_connected P wb_prob M wb_likely 0%nat ltac:(lia)). unfold wb_p in E. lra.
Qed.

(** C124: when every video stands above every other, the passes converge to the
    most likely strengths. *)
Theorem C124_converges : forall a m w, (2 <= m)%nat -> counts a m w -> nonneg_counts m w -> linked m w ->
  exists p, probabilities m p /\ most_likely m w p /\ bt_step a (vec m p) = vec m p /\
    forall e, 0 < e -> exists n0, forall n, (n0 <= n)%nat -> exists q, passes a m n = vec m q /\ forall i, (i < m)%nat -> Rabs (q i - p i) <= e.
Proof. exact c124_converges. Qed.
Print Assumptions C124_converges.

(** C124: and the loop, which has no limit on the passes, ends. *)
Theorem C124_ends : forall pinv a m w, (2 <= m)%nat -> counts a m w -> nonneg_counts m w -> linked m w -> (forall x, exists y, pinv x = Ok y) ->
  exists fuel r, bt_resolve pinv fuel a = Ok r.
Proof. exact c124_ends. Qed.
Print Assumptions C124_ends.

Example C124_nonvacuous : counts wb_arr 2 wb /\ nonneg_counts 2 wb /\ linked 2 wb /\ (forall x, exists y, same x = Ok y) /\
  passes wb_arr 2 0 <> vec 2 wb_p.
Proof.
  split; [exact wb_counts|]. split; [exact wb_nonneg|]. split; [exact wb_linked|]. split; [intro x; exists x; reflexivity|].
  unfold passes. cbn [Nat.iter nat_rect]. rewrite (bt_start_eq 2) by lia. unfold vec, wb_p. cbn [seq map]. intro H. injection H as H _. cbn in H. lra.
Qed.

(** C125: and only then most likely strengths exist. *)
Theorem C125_exists : forall m w, (2 <= m)%nat -> nonneg_counts m w -> connected m w -> ((exists p, most_likely m w p) <-> linked m w).
Proof. exact c125_exists. Qed.
Print Assumptions C125_exists.

(** The first video won every comparison. *)
Definition w_all (i j : nat) : R := match i, j with O, 1%nat => 3 | _, _ => 0 end.
Example C125_nonvacuous : nonneg_counts 2 wb /\ connected 2 wb /\ linked 2 wb /\
  nonneg_counts 2 w_all /\ connected 2 w_all /\ ~ linked 2 w_all.
Proof.
  split; [exact wb_nonneg|]. split; [exact wb_connected|]. split; [exact wb_linked|].
  split; [intros i j Hi Hj; two; unfold w_all; lra|]. split.
  - assert (A : above 2 (games w_all) 0 1) by (apply above_beat with 1%nat; [lia|unfold games, w_all; lra|constructor; lia]).
    assert (B : above 2 (games w_all) 1 0) by (apply above_beat with 0%nat; [lia|unfold games, w_all; lra|constructor; lia]).
    intros i j Hi Hj. two; try assumption; constructor; lia.
  - intro L. specialize (L 1%nat 0%nat ltac:(lia) ltac:(lia)). inversion L as [|i k j Hi W A]. subst. cbn in W. lra.
Qed.

(** C126: a point where the slope of the Thurstone likelihood vanishes is a
    maximum over all scores. *)
Theorem C126_maximum : forall F, normal_cdf F -> forall m w v, nonneg_counts m w ->
  (stationary m (th_likelihood F m w) v <-> most_likely_scores F m w v).
Proof. exact c126_maximum. Qed.
Print Assumptions C126_maximum.

(** C126: the most likely scores are determined up to a common offset. *)
Theorem C126_unique : forall F, normal_cdf F -> forall m w v u, nonneg_counts m w -> connected m w ->
  most_likely_scores F m w v -> most_likely_scores F m w u -> exists c, forall i, (i < m)%nat -> u i = v i + c.
Proof. exact c126_unique. Qed.
Print Assumptions C126_unique.

(** C126: what the code minimises is twice the negative likelihood with 1e-8 / m
    added to each probability. *)
Theorem C126_objective : forall F, normal_cdf F -> forall cdf, computes cdf F -> forall a m w v, (0 < m)%nat -> counts a m w ->
  th_nll cdf a (vec m v) = Fin (-2 * softened F (1 / 100000000 / INR m) m w v).
Proof. exact c126_objective. Qed.
Print Assumptions C126_objective.

(** C126: how far that is from the likelihood. *)
Theorem C126_gap : forall F, normal_cdf F -> forall d m w v, 0 < d -> nonneg_counts m w ->
  th_likelihood F m w v <= softened F d m w v <= th_likelihood F m w v + d * total m (fun i => total m (fun j => w i j / F (v i - v j))).
Proof. exact c126_gap. Qed.
Print Assumptions C126_gap.

(** Both videos won once. *)
Definition w_even (i j : nat) : R := if Nat.eqb i j then 0 else 1.
Lemma even_nonneg : nonneg_counts 2 w_even. Proof. intros i j _ _. unfold w_even. destruct (Nat.eqb i j); lra. Qed.
Lemma even_connected : connected 2 w_even.
Proof.
  assert (A : above 2 (games w_even) 0 1) by (apply above_beat with 1%nat; [lia|unfold games, w_even; cbn; lra|constructor; lia]).
  assert (B : above 2 (games w_even) 1 0) by (apply above_beat with 0%nat; [lia|unfold games, w_even; cbn; lra|constructor; lia]).
  intros i j Hi Hj. two; try assumption; constructor; lia.
Qed.
Example C126_nonvacuous : normal_cdf normal /\ computes ncdf normal /\ nonneg_counts 2 w_even /\ connected 2 w_even /\
  most_likely_scores normal 2 w_even (fun _ => 0) /\ ~ most_likely_scores normal 2 w_even INR.
Proof.
  assert (M : most_likely_scores normal 2 w_even (fun _ => 0)).
  { apply (c126_maximum normal normal_is_cdf); [exact even_nonneg|]. apply (stationary_grad normal normal_is_cdf).
    intros i Hi. unfold th_grad. rewrite !total2. two; unfold delta, w_even; cbn [Nat.eqb]; ring. }
  split; [exact normal_is_cdf|]. split; [exact ncdf_computes|]. split; [exact even_nonneg|]. split; [exact even_connected|]. split; [exact M|].
  intro M'. destruct (c126_unique normal normal_is_cdf 2 w_even _ _ even_nonneg even_connected M M') as (c & E).
  assert (E0 := E 0%nat ltac:(lia)). assert (E1 := E 1%nat ltac:(lia)). cbn [INR] in E0, E1. lra.
Qed.
