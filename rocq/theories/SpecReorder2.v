(** Specification vocabulary for claim C139: results of the MLE classes for the
    same votes, with the videos and the subjects listed in another order. *)
From Coq Require Import String.
From Coq Require Import List Arith.
From Verif Require Import PyBase Num ExtReal NumPy Dataset Mle SpecMos SpecReorder.
Import ListNotations.

(** nE videos in the order p, nS subjects in the order q: entries on videos and on
    subjects follow their order, those on contents and numbers are the same. *)
Definition mle_reordered (p q : nat -> nat) (nE nS : nat) (m m' : mleres ef) : Prop :=
  rearranged p q (ml_raw m) (ml_raw m') /\ rearranged p q (ml_recon m) (ml_recon m') /\
  (forall f, In f [ml_quality; ml_quality_std; ml_quality_lo; ml_quality_hi] -> relisted nE p (f m) (f m')) /\
  (forall f, In f [ml_bias; ml_bias_std; ml_bias_lo; ml_bias_hi; ml_incons; ml_incons_std; ml_incons_lo; ml_incons_hi] -> same_bias q nS (f m) (f m')) /\
  (forall f, In f [ml_ambiguity; ml_ambiguity_std; ml_ambiguity_lo; ml_ambiguity_hi] -> f m' = f m) /\
  (forall f, In f [ml_dof; ml_ll; ml_aic; ml_bic] -> f m' = f m) /\ ml_iter m' = ml_iter m.
