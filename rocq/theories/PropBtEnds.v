(** Claim C131: when Bradley-Terry returns scores. *)
From Coq Require Import List ZArith Bool Arith Reals Lia Lra.
From Verif Require Import PyBase Num ExtReal NumPy SpecMos PairedComp SpecBt SpecBtLimit BtProofs BtLimitProofs BtEndsProofs BtEndsWitness BtWitness PropBtLimit.
Import ListNotations.
Local Open Scope list_scope.
Local Open Scope R_scope.

(** C131: the solver returns scores exactly when every video won a comparison. *)
Theorem C131_ends : forall pinv a m w, (0 < m)%nat -> INR m < 100000000 -> counts a m w -> nonneg_counts m w -> (forall x, exists y, pinv x = Ok y) ->
  ((exists fuel r, bt_resolve pinv fuel a = Ok r) <-> each_won m w).
Proof. exact c131_ends. Qed.
Print Assumptions C131_ends.

(** C131: otherwise it raises ValueError in one of the first two passes. *)
Theorem C131_fails : forall pinv a m w fuel, (0 < m)%nat -> counts a m w -> nonneg_counts m w -> ~ each_won m w -> INR m < 100000000 -> (2 <= fuel)%nat ->
  bt_resolve pinv fuel a = Err ValueError.
Proof. exact winless_fails. Qed.
Print Assumptions C131_fails.

(** C131: the same for an array of votes. *)
Theorem C131_run : forall pinv a m, (0 < m)%nat -> INR m < 100000000 -> dE a = m -> dS a = m -> finite_votes a -> nonneg_counts m (preferences a) -> (forall x, exists y, pinv x = Ok y) ->
  ((exists fuel r, bt_run pinv fuel a = Ok r) <-> forall i, (i < m)%nat -> exists j, (j < m)%nat /\ 0 < preferences a i j).
Proof. exact c131_run. Qed.
Print Assumptions C131_run.

(** C131: it returns scores also when no scores are most likely. *)
Theorem C131_arbitrary : forall pinv, (forall x, exists y, pinv x = Ok y) -> exists a m w fuel r,
  counts a m w /\ nonneg_counts m w /\ connected m w /\ bt_resolve pinv fuel a = Ok r /\ forall p, ~ most_likely m w p.
Proof. exact c131_arbitrary. Qed.
Print Assumptions C131_arbitrary.

Example C131_nonvacuous : counts wb_arr 2 wb /\ nonneg_counts 2 wb /\ each_won 2 wb /\ (forall x, exists y, same x = Ok y) /\ INR 2 < 100000000 /\
  counts (Arr2 2 2 (fun i j => Fin (w_all i j))) 2 w_all /\ nonneg_counts 2 w_all /\ ~ each_won 2 w_all /\ finite_votes wb_votes /\ nonneg_counts 2 (preferences wb_votes).
Proof.
  split; [exact wb_counts|]. split; [exact wb_nonneg|]. split; [exact wb_won|]. split; [intro x; exists x; reflexivity|]. split; [cbn; lra|].
  split; [repeat split|]. split; [intros i j Hi Hj; two; unfold w_all; lra|]. split; [|split; apply wb_votes_run].
  intro E. specialize (E 1%nat ltac:(lia)). unfold wins in E. rewrite total2 in E. cbn in E. lra.
Qed.
