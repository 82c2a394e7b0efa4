(** Claims C129 and C130: when Thurstone scores exist. *)
From Coq Require Import List ZArith Bool Arith Reals Lia Lra.
From Verif Require Import PyBase Num ExtReal NumPy SpecMos PairedComp SpecBt SpecBtLimit SpecThExists BtProofs BtLimitProofs BtWitness NormalCdf ThurstoneProofs ThExistsProofs PropBtLimit.
Import ListNotations.
Local Open Scope list_scope.
Local Open Scope R_scope.

(** C129: most likely scores exist exactly when every video stands above every
    other. *)
Theorem C129_exists : forall F, normal_cdf F -> forall m w, (0 < m)%nat -> nonneg_counts m w -> connected m w ->
  ((exists v, most_likely_scores F m w v) <-> linked m w).
Proof. exact c129_exists. Qed.
Print Assumptions C129_exists.

Example C129_nonvacuous : normal_cdf normal /\ nonneg_counts 2 wb /\ connected 2 wb /\ linked 2 wb /\
  nonneg_counts 2 w_all /\ connected 2 w_all /\ ~ linked 2 w_all.
Proof. split; [exact normal_is_cdf|]. exact C125_nonvacuous. Qed.

(** C130: the objective of the code, with 1e-8 / m added to each probability,
    has a least value only if every video stands above every other. *)
Theorem C130_needed_partial : forall F, normal_cdf F -> forall cdf, computes cdf F -> forall a m w, (0 < m)%nat -> counts a m w -> nonneg_counts m w ->
  connected m w -> (exists v, least_objective cdf a m v) -> linked m w.
Proof. exact c130_needed. Qed.
Print Assumptions C130_needed_partial.

(** C130: it has one if moreover no observed outcome is rare. *)
Theorem C130_exists_partial : forall F, normal_cdf F -> forall cdf, computes cdf F -> forall a m w, (0 < m)%nat -> counts a m w -> nonneg_counts m w ->
  no_rare_win m w -> linked m w -> exists v, least_objective cdf a m v.
Proof. exact c130_exists. Qed.
Print Assumptions C130_exists_partial.

(** C130: without this it need not have one: 1000000000 wins to 1. *)
Theorem C130_exists_refuted : forall F, normal_cdf F -> forall cdf, computes cdf F ->
  exists a m w, counts a m w /\ nonneg_counts m w /\ linked m w /\ forall v, ~ least_objective cdf a m v.
Proof. exact c130_refuted. Qed.
Print Assumptions C130_exists_refuted.

Example C130_nonvacuous : normal_cdf normal /\ computes ncdf normal /\ counts wb_arr 2 wb /\ nonneg_counts 2 wb /\ connected 2 wb /\
  no_rare_win 2 wb /\ linked 2 wb.
Proof.
  split; [exact normal_is_cdf|]. split; [exact ncdf_computes|]. split; [exact wb_counts|]. split; [exact wb_nonneg|]. split; [exact wb_connected|].
  split; [|exact wb_linked]. intros i k Hi Hk. unfold comparisons. rewrite !total2. two; unfold wb; lra.
Qed.
